#!/bin/bash
# build, regenerate, commit, vcheck:  tools/commit.sh "message"
cd /verif && python3 tools/add_print.py && cd rocq && coq_makefile -f _CoqProject -o Makefile && timeout 2400 make -j3 2>&1 | grep -v "Closed\|COQC" | tail -20
[ "${PIPESTATUS[0]}" = 0 ] || exit 1
cd /verif && python3 tools/gen_properties.py && python3 tools/gen_manifest.py && python3 tools/gen_design.py && git add -A && git commit -qm "$1" && vcheck | tail -1 | cut -c1-1500
