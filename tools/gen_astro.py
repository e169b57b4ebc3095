#!/usr/bin/env python3
"""Generate rocq/theories/AstroData.v from the embedded assets of /repo/data.go.

Each asset is base64+gzip of a JSON file.  dateTimeISO is turned into seconds since
0001-01-01T00:00:00Z; the `timestamp` field (Unix seconds) is kept beside it."""
import re,base64,gzip,json,datetime
src=open('/repo/data.go').read()
ents=re.findall(r'"(/[^"]*)": \{\s*local:\s*"([^"]*)",\s*size:\s*(\d+),\s*modtime:\s*\d+,\s*compressed: `([^`]*)`',src)
files={}
for name,local,size,comp in ents:
    raw=gzip.decompress(base64.b64decode(comp))
    assert len(raw)==int(size),name
    if open('/repo/'+local,'rb').read()!=raw: print('DIFFERS from data/: ',name)
    files[name]=raw
dirs=re.findall(r'"(/[^"]*)": \{\s*isDir:\s*true',src)
print(len(files),dirs)
E0=datetime.datetime(1,1,1,tzinfo=datetime.timezone.utc)
out=[]
years=[]
for name in sorted(files):
    y=int(re.match(r'^/data/astro/astro-(\d+)\.json$',name).group(1)); years.append(y)
    j=json.loads(files[name])
    assert set(j)=={'success','error','response'}
    err='' if j['error'] is None else j['error']['code']
    rec=[]
    for m in j['response']:
        t=datetime.datetime.fromisoformat(m['dateTimeISO'])
        off=int(t.utcoffset().total_seconds())
        rec.append((m['code'],int((t-E0)/datetime.timedelta(seconds=1)),off,m['timestamp'],m['name']))
    out.append((y,j['success'],err,rec))
assert years==list(range(years[0],years[-1]+1)),years
print(years[0],years[-1],sum(len(o[3]) for o in out),set((r[0],r[4]) for o in out for r in o[3]))
with open('/verif/rocq/theories/AstroData.v','w') as f:
    f.write('''(** Generated by tools/gen_astro.py from the embedded assets of /repo/data.go
    (the map _escData, data.go:190-3524); do not edit.
    For each file astro-YYYY.json: the success flag, the error code ("" for null) and the
    records (code, dateTimeISO as seconds since 0001-01-01T00:00:00Z, its zone offset in
    seconds, timestamp in Unix seconds). *)
From Coq Require Import ZArith List String.
Import ListNotations.
Open Scope Z_scope.

Definition record : Type := Z * Z * Z * Z.
Definition file : Type := bool * string * list record.

''')
    for y,s,e,rec in out:
        f.write('Definition file_%d : file := (%s, "%s"%%string, [\n'%(y,'true' if s else 'false',e))
        f.write(';\n'.join('(%d,%d,%d,%d)'%r[:4] for r in rec))
        f.write(']).\n')
    f.write('\n(** The years for which a file is embedded, with the files. *)\nDefinition astro_files : list (Z * file) := [\n')
    f.write(';\n'.join('(%d, file_%d)'%(y,y) for y in years)+'].\n')
