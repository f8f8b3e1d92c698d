#!/bin/bash
# dev helper: compile listed files
cd /verif/rocq
for f in "$@"; do timeout ${T:-600} coqc -Q theories Verif theories/$f.v || { echo FAIL $f; exit 1; }; done
