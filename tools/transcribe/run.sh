#!/bin/sh
cd "$(dirname "$0")" || exit 1
d=$(pwd)
python3 "$d/list_models.py" > /dev/null && python3 "$d/write_code.py" && python3 "$d/write_tactics.py" && python3 "$d/write_agreement.py"
