*.vo
*.vok
*.vos
*.glob
*.aux
.*.aux
Makefile
Makefile.conf
.Makefile.d
__pycache__/
.lia.cache
.nra.cache
.*.cache
