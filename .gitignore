*.vo
*.vok
*.vos
*.glob
*.aux
.*.aux
.nra.cache
.lia.cache
.nia.cache
rocq/Makefile
rocq/Makefile.conf
.Makefile.d
