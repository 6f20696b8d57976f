#!/bin/bash
# compile one theory with timing; print slow sentences and the error
cd /verif/rocq
timeout ${2:-300} coqc -time -Q theories Verif theories/$1.v > /tmp/ct.out 2>/tmp/ct.err; rc=$?
awk '{ if (match($0,/\] [0-9.]+ secs/)) { t=substr($0,RSTART+2,RLENGTH-7); if (t+0>2) print } }' /tmp/ct.out
if [ $rc -ne 0 ]; then tail -n 1 /tmp/ct.out; head -c 3000 /tmp/ct.err; fi
echo rc $rc
