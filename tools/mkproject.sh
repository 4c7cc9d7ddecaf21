#!/bin/sh
# Rewrite _CoqProject from the files in theories/.
cd "$(dirname "$0")/../rocq" && { echo "-Q theories Verif"; ls theories/*.v | sort; } > _CoqProject
