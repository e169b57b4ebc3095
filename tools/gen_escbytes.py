#!/usr/bin/env python3
"""Generate rocq/theories/EscBytes.v: the texts `compressed` of _escData in data.go, as they stand there."""
import re
src=open('/repo/data.go').read()
src=src[src.index('var _escData'):]
ents=re.findall(r'^\t"/data/astro/astro-(\d+)\.json": \{.*?compressed: `([^`]*)`',src,re.M|re.S)
assert len(ents)==141 and all('"' not in t for _,t in ents)
with open('/verif/rocq/theories/EscBytes.v','w') as f:
    f.write('''(** Generated by tools/gen_escbytes.py from /repo/data.go:187-3524; do not edit.
    The field [compressed] of every file of [_escData]: the text between the backquotes. *)
From Coq Require Import List String.
Import ListNotations.
Local Open Scope string_scope.

''')
    for y,t in ents: f.write('Definition compressed_%s := "%s".\n'%(y,t))
    f.write('\n(** By key; those of the directories are empty. *)\nDefinition compressed : list (string * string) := [\n'+';\n'.join('("/data/astro/astro-%s.json", compressed_%s)'%(y,y) for y,_ in ents)+'].\n')
