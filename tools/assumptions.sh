#!/bin/sh
# Prints, after a build, how many theorems Cnn_* there are and the assumptions they have.
cd "$(dirname "$0")/../rocq" || exit 1
t=$(mktemp -d); f=$t/assumptions.v
for p in theories/Properties*.v; do m=$(basename "$p" .v); echo "From Verif Require $m."; done > "$f"
for p in theories/Properties*.v; do m=$(basename "$p" .v)
  sed -nE "s/^(Theorem|Lemma) +(C[0-9]+_[A-Za-z0-9_]+).*/Print Assumptions $m.\2./p" "$p"; done >> "$f"
coqc -Q theories Verif "$f" | sort | uniq -c
rm -r "$t"
