#!/bin/bash
# cc file.v : compile, show error context
cd /verif/rocq/theories
ulimit -v 8000000
f=$1
out=$(timeout ${2:-300} coqc -time -Q . Verif $f 2>&1 ); rc=$?
echo "$out" | grep -v '^Chars ' | head -${3:-60}
echo "$out" | awk '/^Chars/{for(i=1;i<=NF;i++) if($i=="secs" && $(i-1)>4) print "SLOW " $0}' | head -5
[ $rc != 0 ] && echo "$out" | grep '^Chars' | tail -1
ln=$(echo "$out" | grep -B1 -E '^Error' | grep -oE 'line [0-9]+' | tail -1 | cut -d' ' -f2)
if [ -n "$ln" ]; then sed -n "$((ln-8>0?ln-8:1)),$((ln+1))p" $f | cat -n; fi
[ $rc = 0 ] && echo OK $f
exit $rc
