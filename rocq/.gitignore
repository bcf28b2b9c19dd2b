*.vo
*.vok
*.vos
*.glob
*.aux
Makefile
Makefile.conf
.Makefile.d
*.d
.*.aux
.lia.cache
.nra.cache
.nia.cache
.csdp.cache
