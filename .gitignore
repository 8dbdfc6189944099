.lia.cache
.nia.cache
*.vo
*.vok
*.vos
*.glob
*.aux
.*.aux
.*.d
Makefile
Makefile.conf
