#!/bin/sh
# rebuild, refresh MANIFEST, commit, vcheck
cd /verif && python3 tools/props.py && python3 tools/manifest.py && python3 tools/design.py && git add -A && git commit -qm "$1" && vcheck | tail -1 | cut -c1-2000
