*.vo
*.vok
*.vos
*.glob
*.aux
.*.aux
.lia.cache
.nia.cache
.lra.cache
.nra.cache
rocq/Makefile
rocq/Makefile.conf
rocq/.Makefile.d
