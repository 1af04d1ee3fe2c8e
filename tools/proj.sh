cd /verif/rocq; { echo "-Q theories Verif"; find theories -name '*.v' | sort; } > _CoqProject; coq_makefile -f _CoqProject -o Makefile
