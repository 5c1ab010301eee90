#!/bin/sh
# Lists every theory file in _CoqProject (flags unchanged).
cd "$(dirname "$0")/../rocq" && { echo "-Q theories Verif"; ls theories/*.v; } > _CoqProject
