*.vo
*.vok
*.vos
*.glob
.*.aux
Makefile*
.lia.cache
.nia.cache
*.d
