rocq/Makefile
rocq/Makefile.conf
rocq/.Makefile.d
rocq/.*.cache
rocq/**/*.vo
rocq/**/*.vok
rocq/**/*.vos
rocq/**/*.glob
rocq/**/.*.aux
**/.lia.cache
**/.nia.cache
