#!/bin/bash
# regenerate manifest, build, and commit only if the build succeeds; then run the checker
set -o pipefail
cd /verif && python3 tools/manifest.py || exit 1
cd rocq && coq_makefile -f _CoqProject -o Makefile || exit 1
if ! timeout 2400 make -j4 > /tmp/build.log 2>&1; then grep -B2 -A12 "^Error" /tmp/build.log | head -c 2500; echo BUILD FAILED; exit 1; fi
cd .. && git add -A && git commit -qm "$1" && timeout 4000 vcheck | grep -o '"gate.*'
