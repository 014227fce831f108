#!/bin/bash
# time the independent checker on the given modules (default: all)
cd /verif/rocq
ms="$@"; [ -z "$ms" ] && ms=$(grep theories _CoqProject | grep '\.v$' | sed 's,theories/,,; s,\.v,,')
for m in $ms; do s=$(date +%s); timeout 120 coqchk -silent -o -Q theories Verif -norec Verif.$m >/tmp/chk.$m 2>&1 || echo "FAIL $m"; e=$(date +%s); echo "$m $((e-s))s"; done
