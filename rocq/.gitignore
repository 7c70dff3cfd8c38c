*.vo
*.vok
*.vos
*.glob
*.aux
.lia.cache
.nia.cache
Makefile*
.Makefile*
