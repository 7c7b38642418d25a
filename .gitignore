*.vo
*.vos
*.vok
*.glob
.*.aux
Makefile
Makefile.conf
.Makefile.d
.lia.cache
.nia.cache
*.aux
.nra.cache
.lia.cache
.nia.cache
.lra.cache
