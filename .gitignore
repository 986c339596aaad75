*.vo
*.vos
*.vok
*.glob
.*.aux
*.aux
rocq/Makefile
rocq/Makefile.conf
rocq/.Makefile.d
rocq/.lia.cache
rocq/.nia.cache
__pycache__/
.lia.cache
.nia.cache
.lia.cache
