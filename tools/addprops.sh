#!/bin/bash
# usage: tools/addprops.sh Checks Step ...   (adds ProofsX.v, generates and adds PropX.v)
cd "$(dirname "$0")/../rocq"
for x in "$@"; do
  python3 ../tools/genprops.py Proofs$x.v
  for f in Proofs$x Prop$x; do grep -q "theories/$f.v" _CoqProject || { [ -n "$(tail -c1 _CoqProject)" ] && echo >> _CoqProject; echo "theories/$f.v" >> _CoqProject; }; done
done
