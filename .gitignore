rocq/**/*.vo
rocq/**/*.vok
rocq/**/*.vos
rocq/**/*.glob
rocq/**/.*.aux
rocq/Makefile
rocq/Makefile.conf
rocq/.Makefile.d
rocq/.*.cache
rocq/**/.*.cache
__pycache__/
