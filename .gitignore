*.vo
*.vok
*.vos
*.glob
*.aux
.*.aux
*.cache
.lia.cache
.nia.cache
.nra.cache
Makefile
Makefile.conf
.Makefile.d
CoqMakefile*
*.d
__pycache__/
