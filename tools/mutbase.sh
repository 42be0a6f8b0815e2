#!/bin/sh
# Built checkout of the last commit, used by mutate.py.
rm -rf /tmp/mutbase; git clone -q /verif /tmp/mutbase && cd /tmp/mutbase/rocq &&
coq_makefile -f _CoqProject -o Makefile >/dev/null 2>&1; make -j4 >/dev/null 2>&1; ls theories/*.vo | wc -l
