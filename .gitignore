*.vo
*.vok
*.vos
*.glob
*.aux
.lia.cache
.nia.cache
.Makefile.d
.CoqMakefile.d
Makefile
Makefile.conf
*.cache
