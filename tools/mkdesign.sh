#!/bin/bash
# DESIGN.md = tools/design_head.md + output of assumptions.py
cd "$(dirname "$0")"; cp design_head.md ../DESIGN.md; cat "${1:-/dev/stdin}" >> ../DESIGN.md
