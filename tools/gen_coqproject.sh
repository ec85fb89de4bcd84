#!/bin/sh
# Regenerates rocq/_CoqProject: the fixed flags, then every .v file.
cd "$(dirname "$0")/../rocq" || exit 1
{ echo "-Q theories Verif"; find theories -name '*.v' | LC_ALL=C sort; } > _CoqProject
