cd /verif/rocq && coq_makefile -f _CoqProject -o Makefile >/dev/null && timeout ${1:-1800} make -j4 2>&1 | grep -v -e '^  ' -e Axioms -e sig_forall -e sig_not_dec -e functional_ext -e '^  :' -e 'Closed under'
