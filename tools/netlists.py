"""Transcribes back-end/Exu/include/fadd.h and fmul.h (straight-line gate lists) into
rocq/theories/NetAdd.v and NetMul.v.  Reads the headers as text.
usage: netlists.py REPO OUTDIR"""
import re, sys
def parse(f):
    g, po, pi = [], {}, {}
    for l in open(f):
        l = l.strip()
        m = re.match(r'bool n(\d+) = pi\[(\d+)\];$', l)
        if m: pi[int(m[1])] = int(m[2]); continue
        m = re.match(r'bool n(\d+) = (!?)n(\d+) && (!?)n(\d+);$', l)
        if m: g.append((int(m[1]), 2*int(m[3])+(m[2]=='!'), 2*int(m[5])+(m[4]=='!'))); continue
        m = re.match(r'po\[(\d+)\] = (!?)n(\d+);$', l)
        if m: po[int(m[1])] = 2*int(m[3])+(m[2]=='!'); continue
        if l.startswith('bool n0 = false'): continue
        assert not l or l.startswith(('#', 'extern', 'void', '}')), l
    assert all(pi[i+1] == i for i in range(67))
    assert [x[0] for x in g] == list(range(68, 68+len(g))) and sorted(po) == list(range(37))
    return [(a+2, b+2) for _, a, b in g], [po[i]+2 for i in range(37)]
for nm, mod in (('fadd', 'NetAdd'), ('fmul', 'NetMul')):
    g, po = parse(sys.argv[1] + '/back-end/Exu/include/' + nm + '.h')
    out = ['(** back-end/Exu/include/%s.h, %s_io_generator: the %d gates [n68 ..] in the order of' % (nm, nm, len(g)),
           '    the file and the 37 outputs, as literals (see NetModel.v). *)',
           'From Coq Require Import List PArith. Import ListNotations.', 'Local Open Scope positive_scope.']
    names = []
    for i in range(0, len(g), 400):
        n = 'g%d' % (i//400); names.append(n)
        row = ['(%d,%d)' % x for x in g[i:i+400]]
        out.append('Definition %s : list (positive * positive) := [' % n)
        out.append(';\n'.join('; '.join(row[j:j+12]) for j in range(0, len(row), 12)) + '].')
    out.append('Definition %s : list (positive * positive) * list positive :=' % nm)
    out.append('  (%s,\n   [%s]).' % (' ++\n   '.join(' ++ '.join(names[j:j+12]) for j in range(0, len(names), 12)), '; '.join(map(str, po))))
    open('%s/%s.v' % (sys.argv[2], mod), 'w').write('\n'.join(out) + '\n')
