#!/bin/bash
# regenerate _CoqProject's file list (order is irrelevant, coqdep sorts it out)
cd "$(dirname "$0")"
{ echo "-Q theories Verif"; ls theories/*.v; } > _CoqProject
coq_makefile -f _CoqProject -o Makefile && make -j4 "$@"
