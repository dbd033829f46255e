#!/bin/sh
# regenerate rocq/theories/Snap*.v from /repo/internal/testdata/snapshots
cd "$(dirname "$0")"
for d in alias embedded generallyeric impls initial inlinestruct package-documentation pr198 pr199 pr201 pr202 pr206 pr211 pr216 pr218 pr222 pr256 replace-directives sharedtestmodule switches testdata testspecial; do
  n=$(python3 -c "import sys; print(\"Snap\" + \"\".join(w.capitalize() for w in sys.argv[1].split(\"-\")))" $d)
  python3 emit.py $d $n ../../rocq/theories/$n.v && echo $n
done
