*.vo
*.vok
*.vos
*.glob
*.aux
.*.aux
.lia.cache
.nia.cache
.nra.cache
*.d
Makefile
Makefile.conf
.Makefile.d
