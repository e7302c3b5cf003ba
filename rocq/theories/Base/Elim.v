(** Gaussian elimination over the rationals: a fit that meets the contracts asked of the
    solvers, so that these contracts are not empty. *)
From Verif Require Import Base.Prelude.
Open Scope list_scope. Open Scope Q_scope.

(** scalar product *)
Fixpoint dotp (a b : list Q) : Q := match a, b with x :: s, y :: t => x * y + dotp s t | _, _ => 0 end.
(** [a - c * b], entry by entry *)
Fixpoint subs (c : Q) (a b : list Q) : list Q := match a, b with x :: s, y :: t => (x - c * y) :: subs c s t | _, _ => [] end.
(** the first equation whose first coefficient is not 0 *)
Fixpoint pivot (e : list (list Q * Q)) : option (Q * list Q * Q) :=
  match e with
  | [] => None
  | (a :: r, b) :: t => if Qeq_bool a 0 then pivot t else Some (a, r, b)
  | ([], _) :: t => pivot t
  end.
Definition eliminate (a : Q) (r : list Q) (b : Q) (q : list Q * Q) : list Q * Q :=
  (subs (hd 0 (fst q) / a) (tl (fst q)) r, snd q - hd 0 (fst q) / a * b).
(** a solution of [e] if there is one *)
Fixpoint elim_solve (n : nat) (e : list (list Q * Q)) : list Q :=
  match n with
  | O => []
  | S m => match pivot e with
           | None => 0 :: elim_solve m (map (fun q => (tl (fst q), snd q)) e)
           | Some (a, r, b) => let xs := elim_solve m (map (eliminate a r b) e) in (b - dotp r xs) / a :: xs
           end
  end.

Definition solves (x : list Q) (e : list (list Q * Q)) : Prop := forall q, In q e -> dotp (fst q) x == snd q.
Lemma elim_length n e : length (elim_solve n e) = n.
Proof. revert e. induction n as [|n IH]; intros e; [reflexivity|]. cbn. destruct (pivot e) as [[[a r] b]|]; cbn; rewrite IH; reflexivity. Qed.
Lemma subs_length c a b : length a = length b -> length (subs c a b) = length a.
Proof. revert b. induction a as [|x a IH]; intros [|y b] H; cbn in *; try discriminate; [reflexivity|]. f_equal. apply IH. congruence. Qed.
Lemma dotp_subs c a b x : length a = length b -> dotp (subs c a b) x == dotp a x - c * dotp b x.
Proof.
  revert b x. induction a as [|p a IH]; intros [|q b] x H; cbn in *; try discriminate; [lra|]. destruct x as [|y x]; [lra|].
  rewrite (IH b x) by congruence. ring.
Qed.
Lemma pivot_some e a r b : pivot e = Some (a, r, b) -> In (a :: r, b) e /\ ~ a == 0.
Proof.
  induction e as [|[[|x s] y] e IH]; cbn; [discriminate| |].
  - intros H. destruct (IH H). split; [right|]; assumption.
  - destruct (Qeq_bool x 0) eqn:E.
    + intros H. destruct (IH H). split; [right|]; assumption.
    + intros H. assert (x = a /\ s = r /\ y = b) as (-> & -> & ->) by (split; [|split]; congruence). split; [left; reflexivity|]. apply Qeq_bool_neq, E.
Qed.
Lemma pivot_none e q : pivot e = None -> In q e -> hd 0 (fst q) == 0.
Proof.
  induction e as [|[[|x s] y] e IH]; cbn; [intros _ []| |].
  - intros H [<-|K]; [cbn; lra|apply IH; assumption].
  - destruct (Qeq_bool x 0) eqn:E; [|discriminate]. intros H [<-|K]; [cbn; apply Qeq_bool_eq, E|apply IH; assumption].
Qed.
Lemma elim_ok n e : (forall q, In q e -> length (fst q) = n) -> (exists y, length y = n /\ solves y e) -> solves (elim_solve n e) e.
Proof.
  revert e. induction n as [|n IH]; intros e Hl (y & Ly & Hy).
  - destruct y; [|discriminate]. exact Hy.
  - destruct y as [|y0 y]; [discriminate|]. cbn [elim_solve]. destruct (pivot e) as [[[a r] b]|] eqn:P.
    + destruct (pivot_some _ _ _ _ P) as [Pin Pa].
      assert (Lr : length r = n) by (pose proof (Hl _ Pin) as K; cbn in K; congruence).
      set (xs := elim_solve n (map (eliminate a r b) e)).
      assert (Hx : solves xs (map (eliminate a r b) e)).
      { apply IH.
        - intros q Hq. apply in_map_iff in Hq. destruct Hq as (q0 & <- & Hq0). unfold eliminate. cbn [fst]. pose proof (Hl _ Hq0) as K. destruct (fst q0) as [|c s]; [discriminate|]. cbn [hd tl].
          cbn in K. rewrite subs_length; [congruence|congruence].
        - exists y. split; [cbn in Ly; congruence|]. intros q Hq. apply in_map_iff in Hq. destruct Hq as (q0 & <- & Hq0). unfold eliminate. cbn [fst snd].
          pose proof (Hl _ Hq0) as K. pose proof (Hy _ Hq0) as E0. pose proof (Hy _ Pin) as E1. destruct q0 as [[|c s] d]; [discriminate|]. cbn in K, E0, E1 |- *.
          rewrite dotp_subs by congruence. rewrite <- E0, <- E1. field. exact Pa. }
      intros [[|c s] d] Hq; [pose proof (Hl _ Hq) as K; discriminate|]. pose proof (Hl _ Hq) as K. cbn in K.
      pose proof (Hx _ (in_map (eliminate a r b) _ _ Hq)) as E0. unfold eliminate in E0. cbn [fst snd hd tl] in E0. rewrite dotp_subs in E0 by congruence. cbn [fst snd dotp].
      setoid_replace d with (dotp s xs - c / a * dotp r xs + c / a * b) by (rewrite E0; ring). field. exact Pa.
    + assert (Hx : solves (elim_solve n (map (fun q => (tl (fst q), snd q)) e)) (map (fun q => (tl (fst q), snd q)) e)).
      { apply IH.
        - intros q Hq. apply in_map_iff in Hq. destruct Hq as (q0 & <- & Hq0). cbn [fst]. pose proof (Hl _ Hq0) as K. destruct (fst q0); [discriminate|]. cbn in K |- *. congruence.
        - exists y. split; [cbn in Ly; congruence|]. intros q Hq. apply in_map_iff in Hq. destruct Hq as (q0 & <- & Hq0). cbn [fst snd].
          pose proof (pivot_none _ _ P Hq0) as Z. pose proof (Hy _ Hq0) as E0. pose proof (Hl _ Hq0) as K. destruct q0 as [[|c s] d]; [discriminate|]. cbn in Z, E0 |- *.
          rewrite <- E0, Z. ring. }
      intros [[|c s] d] Hq; [pose proof (Hl _ Hq) as K; discriminate|].
      pose proof (pivot_none _ _ P Hq) as Z. pose proof (Hx _ (in_map (fun q => (tl (fst q), snd q)) _ _ Hq)) as E0. cbn in Z, E0 |- *. rewrite Z, E0. ring.
Qed.
