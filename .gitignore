*.vo
*.vok
*.vos
*.glob
*.aux
Makefile
Makefile.conf
.Makefile.d
.*.cache
.lia.cache
.nia.cache
*.d
