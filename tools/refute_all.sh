#!/bin/sh
# refute_all.sh SCRATCH: every wrong program of seeded/refutations contradicts the named theorem
D=$(dirname $0)/../seeded/refutations
for m in m04 m07 m26 m30 m40 m63 s08 s10 s11 s16; do python3 $(dirname $0)/refute.py $1 $m $D/$m.txt --light; done
for m in m01 m13 m43 m44 m46 s06; do python3 $(dirname $0)/refute.py $1 $m $D/$m.txt --light1; done
