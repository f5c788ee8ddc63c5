#!/bin/bash
# usage: milestone.sh "message": rebuild, regenerate manifest, commit, vcheck
cd /verif/rocq && coq_makefile -f _CoqProject -o Makefile >/dev/null && make -j4 2>&1 | grep -v "^COQ\|Closed under" | head -30
cd /verif && python3 tools/mkmanifest.py && git add -A && git commit -qm "$1" && vcheck 2>&1 | tail -3 | grep -o "manifest_status.*"
