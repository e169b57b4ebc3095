#!/usr/bin/env python3
"""Generate rocq/theories/EscData.v: the keys of _escData in data.go with size and isDir."""
import re
src=open('/repo/data.go').read()
src=src[src.index('var _escData'):]
rows=[]
for m in re.finditer(r'^\t"([^"]*)": \{(.*?)^\t\},',src,re.M|re.S):
    size=re.search(r'^\t\tsize:\s+(\d+)',m.group(2),re.M)
    rows.append((m.group(1),int(size.group(1)) if size else 0,'isDir: true' in m.group(2)))
assert len(rows)==144
open('/verif/rocq/theories/EscData.v','w').write('''(** Generated by tools/gen_esc.py from /repo/data.go:187-3524; do not edit.
    The keys of [_escData] with the fields [size] and [isDir]. *)
From Coq Require Import ZArith List String.
Import ListNotations.
Open Scope Z_scope.

Definition esc_entries : list (string * (Z * bool)) := [
%s]%%string.
'''%';\n'.join('("%s", (%d, %s))'%(k,s,'true' if d else 'false') for k,s,d in rows))
meta=[]
for m in re.finditer(r'^\t"([^"]*)": \{(.*?)^\t\},',src,re.M|re.S):
    mod=re.search(r'^\t\tmodtime:\s+(\d+)',m.group(2),re.M)
    meta.append((m.group(1),int(mod.group(1)) if mod else 0,re.search(r'^\t\tlocal:\s+"([^"]*)"',m.group(2),re.M).group(1)))
open('/verif/rocq/theories/EscMeta.v','w').write('''(** Generated by tools/gen_esc.py from /repo/data.go:187-3524; do not edit.
    The keys of [_escData] with the fields [modtime] and [local]. *)
From Coq Require Import ZArith List String.
Import ListNotations.
Open Scope Z_scope.

Definition esc_meta : list (string * (Z * string)) := [
%s]%%string.
'''%';\n'.join('("%s", (%d, "%s"))'%r for r in meta))
