.lia.cache
.nia.cache
*.vo
*.vok
*.vos
*.glob
*.aux
.*.aux
Makefile
Makefile.conf
.Makefile.d
.Makefile.coq.d
CoqMakefile*
