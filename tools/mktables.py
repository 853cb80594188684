#!/usr/bin/env python3
"""Writes rocq/theories/Tables.v from the literals in /repo/db/field/data and
/repo/db/field/operate/district.go (pure copy of data)."""
import re
def raw(f, name):
    t = open('/repo/db/field/data/' + f, encoding='utf8').read()
    m = re.search(r'const ' + name + r' = `([^`]*)`', t)
    line = t[:m.start()].count('\n') + 1
    end = t[:m.end()].count('\n') + 1
    return m.group(1), line, end
out = ['(** Generated by tools/mktables.py: the data literals of /repo/db/field/data and',
       '    of db/field/operate/district.go, copied verbatim. *)',
       'From Verif Require Import Base.', '']
for f, n in [('city.go', 'CityList'), ('province.go', 'ProvinceList'), ('isp.go', 'ISPList'), ('continent.go', 'ContinentList')]:
    s, a, b = raw(f, n)
    out.append('(** db/field/data/%s:%d-%d %s *)' % (f, a, b, n))
    out.append('Definition %s : bytes := str "%s".' % (n, s.replace('"', '""')))
    out.append('')
t = open('/repo/db/field/operate/district.go', encoding='utf8').read()
m = re.search(r'var provinceDistrict = map\[string\]string\{(.*?)\n\}', t, re.S)
ps = re.findall(r'"([^"]*)":\s*"([^"]*)"', m.group(1))
out.append('(** db/field/operate/district.go:%d-%d provinceDistrict *)' % (t[:m.start()].count('\n')+1, t[:m.end()].count('\n')+1))
out.append('Definition provinceDistrict : list (bytes * bytes) := [')
out.append(';\n'.join('  (str "%s", str "%s")' % p for p in ps) + '].')
open('/verif/rocq/theories/Tables.v', 'w', encoding='utf8').write('\n'.join(out) + '\n')
