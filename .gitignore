.lia.cache
.nia.cache
*.vo
*.vok
*.vos
*.glob
*.aux
.*.d
Makefile
Makefile.conf
.nra.cache
.lia.cache
.nia.cache
