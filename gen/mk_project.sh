#!/bin/sh
# Regenerates rocq/_CoqProject from the files present.
cd "$(dirname "$0")/../rocq" && { echo "-Q theories Verif"; ls theories/*.v | LC_ALL=C sort; } > _CoqProject
