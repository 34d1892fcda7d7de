#!/usr/bin/env python3
"""Transcribes RESTART_PROPERTIES of /repo/fv3gfs/util/_properties.py to rocq/theories/Model/Properties.v (the file is parsed, not run)."""
import ast
t = ast.parse(open("/repo/fv3gfs/util/_properties.py").read())
d = next(n.value for n in t.body if isinstance(n, ast.AnnAssign) and n.target.id == "RESTART_PROPERTIES")
out = ['''(** RESTART_PROPERTIES of fv3gfs/util/_properties.py 13-464, transcribed by tools/table.py.  Entries other than dims, restart_name
    and units (descriptions) are left out; they are not read by the code. *)
From Verif.Base Require Import Base.
From Verif.Model Require Import Consts.
Local Open Scope string_scope.

Record property := mkProp { p_dims : list string; p_restart : string; p_units : string }.
Definition RESTART_PROPERTIES : dict property := [''']
rows = []
for k, v in zip(d.keys, d.values):
    e = {kk.value: vv for kk, vv in zip(v.keys, v.values)}
    dims = "; ".join(n.id for n in e["dims"].elts)
    rows.append('  ("%s", mkProp [%s] "%s" "%s")' % (k.value, dims, e["restart_name"].value, e["units"].value))
last = d.end_lineno
out[0] = out[0].replace("464", str(last))
open("/verif/rocq/theories/Model/Properties.v", "w").write(out[0] + "\n" + ";\n".join(rows) + "].\n")
print(len(rows), last)
