#!/usr/bin/env python3
"""Generate rocq/theories/YearsData.v: the table in utils/years-csv.go, the file utils/years.csv it was
used to write, and the tables of expected values in suriya_test.go."""
import re
q = lambda s: '"%s"' % s.replace('"', '""')
go = open('/repo/utils/years-csv.go').read()
pub = re.findall(r'^\s*(\d+): \{"([^"]*)", "([^"]*)", "([^"]*)"\}', go, re.M)
csv = open('/repo/utils/years.csv').read()
t = open('/repo/suriya_test.go').read()
def body(name):
    a = t.index('func ' + name)
    b = t.find('\nfunc ', a)
    return t[a:b if b > 0 else len(t)]
am = re.findall(r'^\s*(\d+):\s+(true|false),', body('TestAdhikamasa'), re.M)
av = re.findall(r'^\s*(\d+):\s+(true|false),', body('TestAdhikavara'), re.M)
asalha = re.findall(r'^\s*(\d+):\s+"(\d+-\d+-\d+)",', body('TestAsalhaPuja'), re.M)
MON = 'Jan Feb Mar Apr May Jun Jul Aug Sep Oct Nov Dec'.split()
hor = re.findall(r'^\s*(\d+):\s+"(\d+) (\w+) (\d+)",', body('TestDay'), re.M)
print(len(pub), len(am), len(av), len(asalha), len(hor))
with open('/verif/rocq/theories/YearsData.v', 'w') as f:
    f.write('''(** Generated by tools/gen_years.py; do not edit.
    Tables recorded in the repository: /repo/utils/years-csv.go:63-111 (dates of Asalha Puja in published
    calendars), /repo/utils/years.csv, and the expected values of /repo/suriya_test.go:8-127, 272-341, 449-464. *)
From Coq Require Import ZArith List String.
Import ListNotations.
Local Open Scope string_scope.

(** (year, (date, source, comments)) *)
Definition published : list (Z * (string * string * string)) := [
%s].
Definition recorded_csv : string :=
%s.
Definition tested_adhikamasa : list (Z * bool) := [
%s].
Definition tested_adhikavara : list (Z * bool) := [
%s].
Definition tested_asalha : list (Z * string) := [
%s].
(** (Horakhun, (year, month, day)) *)
Definition tested_horakhun : list (Z * (Z * Z * Z)) := [
%s].
''' % (';\n'.join('(%s%%Z, (%s, %s, %s))' % (y, q(a), q(b), q(c)) for y, a, b, c in pub), q(csv),
       '; '.join('(%s%%Z, %s)' % p for p in am), '; '.join('(%s%%Z, %s)' % p for p in av),
       ';\n'.join('(%s%%Z, %s)' % (y, q(d)) for y, d in asalha),
       '; '.join('(%s, (%d, %d, %s))%%Z' % (h, int(y), MON.index(m) + 1, d) for h, y, m, d in hor)))
