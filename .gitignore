.lia.cache
*.vo
*.vos
*.vok
*.glob
*.aux
Makefile*
.Makefile*
.nia.cache
