*.aux
*.d
*.glob
*.vo
*.vok
*.vos
.Makefile.d
.lia.cache
.nia.cache
Makefile
Makefile.conf
.nra.cache
