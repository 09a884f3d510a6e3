#!/bin/sh
# helper: regenerate the Makefile and build
cd "$(dirname "$0")" && coq_makefile -f _CoqProject -o Makefile && timeout "${T:-900}" make -j4 2>&1 | grep -v "^COQ\|Closed under" | head -${N:-40}
