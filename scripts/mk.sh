#!/bin/sh
cd /verif/rocq && coq_makefile -f _CoqProject -o Makefile >/dev/null && timeout ${T:-2400} make -j4 2>&1 | grep -v "^COQ\|^make" | tail -${N:-40}
