(** Complex numbers with rational parts (exact arithmetic). *)
From Verif Require Import Base.Prelude.
Open Scope Q_scope.

Record cq := mkC { re : Q; im : Q }.
Definition ceq (a b : cq) : Prop := re a == re b /\ im a == im b.
Definition cplus (a b : cq) : cq := mkC (re a + re b) (im a + im b).
Definition cminus (a b : cq) : cq := mkC (re a - re b) (im a - im b).
Definition ctimes (a b : cq) : cq := mkC (re a * re b - im a * im b) (re a * im b + im a * re b).
Definition cscale (q : Q) (a : cq) : cq := mkC (q * re a) (q * im a).
Definition conj_ (a : cq) : cq := mkC (re a) (- im a).
Definition c0 : cq := mkC 0 0.
Definition normsq (a : cq) : Q := re a * re a + im a * im a.

Global Instance ceq_equiv : Equivalence ceq.
Proof.
  split; [intros a; split; reflexivity|intros a b [H1 H2]; split; symmetry; assumption|].
  intros a b c [H1 H2] [H3 H4]. split; [rewrite H1|rewrite H2]; assumption.
Qed.
Global Instance cplus_comp : Proper (ceq ==> ceq ==> ceq) cplus.
Proof. intros a b [H1 H2] c d [H3 H4]. split; cbn; [rewrite H1, H3|rewrite H2, H4]; reflexivity. Qed.
Global Instance cminus_comp : Proper (ceq ==> ceq ==> ceq) cminus.
Proof. intros a b [H1 H2] c d [H3 H4]. split; cbn; [rewrite H1, H3|rewrite H2, H4]; reflexivity. Qed.
Global Instance ctimes_comp : Proper (ceq ==> ceq ==> ceq) ctimes.
Proof. intros a b [H1 H2] c d [H3 H4]. split; cbn; rewrite H1, H2, H3, H4; reflexivity. Qed.
Global Instance cscale_comp : Proper (Qeq ==> ceq ==> ceq) cscale.
Proof. intros p q H a b [H1 H2]. split; cbn; [rewrite H, H1|rewrite H, H2]; reflexivity. Qed.
Global Instance conj_comp : Proper (ceq ==> ceq) conj_.
Proof. intros a b [H1 H2]. split; cbn; [rewrite H1|rewrite H2]; reflexivity. Qed.
