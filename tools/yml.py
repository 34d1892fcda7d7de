#!/usr/bin/env python3
"""Transcribes /repo/fv3gfs/util/restart_properties.yml to rocq/theories/Spec/PropertiesFile.v (mappings of dims, restart_name and units only)."""
import re
rows, cur, key = {}, None, None
for line in open("/repo/fv3gfs/util/restart_properties.yml").read().splitlines():
    if m := re.match(r"(\S[^:]*):\s*$", line):
        cur = m.group(1); rows[cur] = {}
    elif m := re.match(r"  (\w+):\s*(.*)$", line):
        key = m.group(1)
        rows[cur][key] = m.group(2).strip("'") if m.group(2) else []
    elif m := re.match(r"  - (\S+)$", line):
        rows[cur][key].append(m.group(1))
    else:
        raise SystemExit("not understood: " + line)
out = '''(** The entries of fv3gfs/util/restart_properties.yml, transcribed by tools/yml.py: name, dims, restart_name, units. *)
From Verif.Base Require Import Base.
Local Open Scope string_scope.

Definition properties_file : list (string * (list string * string * string)) := [
'''
out += ";\n".join('  ("%s", ([%s], "%s", "%s"))' % (k, "; ".join('"%s"' % d for d in e["dims"]), e["restart_name"], e["units"]) for k, e in rows.items())
open("/verif/rocq/theories/Spec/PropertiesFile.v", "w").write(out + "].\n")
print(len(rows), {tuple(sorted(e)) for e in rows.values()})
