#!/bin/sh
# Regenerate the file list of rocq/_CoqProject (flags unchanged).
cd "$(dirname "$0")/../rocq" || exit 1
{ echo "-Q theories Verif"; find theories -name '*.v' | LC_ALL=C sort; } > _CoqProject
