#!/usr/bin/env python3
"""Writes rocq/theories/Schemas.v: for every message of /repo/api/oidc/*/v1/*_vtproto.pb.go, the
fields in the order of MarshalToSizedBufferVT, with the tag bytes it writes, the constant that
SizeVT adds and the case and wire type of UnmarshalVT.  Each is read from the text of its own
function, so that the check in PfWire compares the three."""
import re, glob, os, sys
repo = sys.argv[1] if len(sys.argv) > 1 else '/repo'
root = os.path.dirname(os.path.dirname(os.path.abspath(__file__)))

def func(s, recv, name):
    m = re.search(r'\nfunc \(m \*%s\) %s\(.*?\{\n(.*?)\n\}\n' % (recv, name), s, re.S)
    if not m: return None, 0, 0
    a = s[:m.start()].count('\n') + 2
    return m.group(1), a, a + m.group(0).count('\n') - 2

def blocks(body):
    """Top-level statements `if ... { ... }` of a function body."""
    return re.findall(r'^\t(if .*?\{\n.*?^\t\})', body, re.S | re.M)

def tag_of(b):
    t = [int(x, 16) for x in re.findall(r'dAtA\[i\] = (0x[0-9a-f]+)', b)]
    return t

msgs = []; count = 0
for f in sorted(glob.glob(repo + '/api/oidc/*/v1/*_vtproto.pb.go')):
    s = open(f).read(); rel = f[len(repo) + 1:]
    pkg = rel.split('/')[2]
    # imported packages, for the types of nested messages
    imps = dict(re.findall(r'^\s*(v1\d*) "zntr.io/solid/api/oidc/(\w+)/v1"', s, re.M))
    for m in re.finditer(r'\nfunc \(m \*(\w+)\) UnmarshalVT\(', s):
        name = m.group(1)
        un, ua, ub = func(s, name, 'UnmarshalVT'); ma, maa, mab = func(s, name, 'MarshalToSizedBufferVT'); sz, sa, sb = func(s, name, 'SizeVT')
        # UnmarshalVT: number -> (field, wire type, type)
        cases = re.split(r'\n\t\tcase (\d+):\n', un.split('\n\t\tdefault:\n\t\t\tiNdEx = preIndex')[0])
        U = {}; O = {}
        for n, c in zip(cases[1::2], cases[2::2]):
            fld = re.search(r'for field (\w+)"', c).group(1)
            wt = int(re.search(r'if wireType != (\d)', c).group(1))
            def msgname(x):
                x = x.strip()
                if '.' in x: p, x = x.split('.'); return imps[p] + '.' + x
                return pkg + '.' + x
            if 'mapkey' in c: ty = 'TMap'
            elif 'if oneof, ok := m.' in c:
                mm = re.search(r'oneof, ok := m\.(\w+)\.\(\*(\w+)\)', c); mt = re.search(r'v := &([\w.]+)\{\}', c).group(1)
                assert 'm.%s = &%s{%s: v}' % (mm.group(1), mm.group(2), fld) in c
                O[fld] = (mm.group(1), mm.group(2)); ty = 'TMsg "%s"' % msgname(mt)
            elif re.search(r'm\.%s = append\(m\.%s, &([\w.]+)\{\}\)' % (fld, fld), c): ty = 'TRepMsg "%s"' % msgname(re.search(r'append\(m\.\w+, &([\w.]+)\{\}', c).group(1))
            elif re.search(r'm\.%s = &([\w.]+)\{\}' % fld, c): ty = 'TMsg "%s"' % msgname(re.search(r'm\.%s = &([\w.]+)\{\}' % fld, c).group(1))
            elif 'm.%s = append(m.%s, string(' % (fld, fld) in c: ty = 'TRepStr'
            elif 'm.%s = &s' % fld in c and 's := string(' in c: ty = 'TOptStr'
            elif 'm.%s = string(' % fld in c or 'm.%s = append(m.%s[:0], dAtA[iNdEx:postIndex]...)' % (fld, fld) in c: ty = 'TStr'
            elif 'm.%s = bool(v != 0)' % fld in c: ty = 'TNum NBool'
            elif 'b := bool(v != 0)' in c and 'm.%s = &b' % fld in c: ty = 'TOptNum NBool'
            elif 'm.%s = uint64(binary.LittleEndian' % fld in c: ty = 'TNum NFixed64'
            elif 'v = uint64(binary.LittleEndian' in c and 'm.%s = &v' % fld in c: ty = 'TOptNum NFixed64'
            elif 'var v uint64' in c and 'm.%s = &v' % fld in c: ty = 'TOptNum NUint64'
            elif re.search(r'm\.%s \|= ([\w.]+)\(b&0x7F\) << shift' % fld, c): ty = 'TNum NEnum'
            else: sys.exit('unknown case %s.%s' % (name, fld))
            assert fld not in U; U[fld] = (int(n), wt, ty)
        # MarshalToSizedBufferVT: order and tags; SizeVT: constants
        M = []; seen = set()
        for b in blocks(ma):
            if b.startswith('if m == nil') or 'm.unknownFields' in b: continue
            if 'vtmsg, ok := m.' in b:
                M.append(('oneof', re.search(r'vtmsg, ok := m\.(\w+)\.', b).group(1))); continue
            fld = re.search(r'm\.(\w+)', b).group(1)
            cond = b.split(' {')[0]
            ty = U[fld][2]
            want = {'TStr': 'if len(m.%s) > 0', 'TOptStr': 'if m.%s != nil', 'TRepStr': 'if len(m.%s) > 0', 'TNum NBool': 'if m.%s', 'TNum NEnum': 'if m.%s != 0',
                    'TNum NFixed64': 'if m.%s != 0', 'TMap': 'if len(m.%s) > 0'}.get(ty, 'if len(m.%s) > 0' if ty.startswith('TRepMsg') else 'if m.%s != nil') % fld
            if ty == 'TStr' and cond == 'if m.%s != nil' % fld:   # optional bytes
                U[fld] = (U[fld][0], U[fld][1], 'TOptStr')
            else: assert cond == want, (name, fld, cond, want)
            assert re.search(r'(l = len\(m\.%s\)\n\tif l > 0 \{)|(%s \{)' % (fld, re.escape(cond)), sz), (name, fld)
            bb = b
            t = [int(x, 16) for x in re.findall(r'dAtA\[i\] = (0x[0-9a-f]+)', bb)]
            if 'baseI := i' in bb: assert t[:2] == [0x12, 0xa]; t = t[2:]
            M.append(('field', fld, list(reversed(t))))
        M.reverse()
        def const(body, fld):
            for b in blocks(body) + re.findall(r'^\tl = len\(m\.\w+\)\n\tif l > 0 \{\n.*?^\t\}', body, re.S | re.M):
                if re.search(r'm\.%s\b' % fld, b) and not b.startswith('if m == nil'):
                    mm = re.search(r'n \+= mapEntrySize \+ (\d+) \+ sov', b) or re.search(r'n \+= (\d+)', b)
                    if mm: return int(mm.group(1))
            sys.exit('no size %s.%s' % (name, fld))
        out = []
        def field(fld, tag, size):
            n, wt, ty = U[fld]; seen.add(fld)
            return 'mkField "%s" (%s) [%s] %d %d %d' % (fld, ty, '; '.join(map(str, tag)), size, n, wt)
        for e in M:
            if e[0] == 'field': out.append('Plain (%s)' % field(e[1], e[2], const(sz, e[1])))
            else:
                alts = []
                for fld, (g, w) in O.items():
                    if g != e[1]: continue
                    wm, _, _ = func(s, w, 'MarshalToSizedBufferVT'); ws, _, _ = func(s, w, 'SizeVT')
                    t = [int(x, 16) for x in re.findall(r'dAtA\[i\] = (0x[0-9a-f]+)', wm)]
                    alts.append(field(fld, list(reversed(t)), const(ws, fld)))
                out.append('Oneof [\n        ' + ';\n        '.join(alts) + ']')
        assert seen == set(U), (name, set(U) - seen)
        count += len(U)
        msgs.append((pkg + '.' + name, '%s: MarshalToSizedBufferVT %d-%d, SizeVT %d-%d, UnmarshalVT %d-%d' % (rel, maa, mab, sa, sb, ua, ub), out))

w = ['(** * The messages of the generated codec\n\n    Written by tools/gen_schemas.py from the text of the Go files. *)\n\nFrom Verif Require Import Wire.\nLocal Open Scope string_scope.\nLocal Open Scope N_scope.\n']
for name, cite, out in msgs:
    ident = 'sch_' + name.replace('.', '_')
    w.append('(** %s *)\nDefinition %s : schema := [\n    %s].\n' % (cite, ident, ';\n    '.join(out)))
w.append('(** All messages by name. *)\nDefinition vt_table : list (string * schema) := [\n    ' + ';\n    '.join('("%s", sch_%s)' % (n, n.replace('.', '_')) for n, _, _ in msgs) + '].\n')
w.append('Definition vt_env : wire_env := fun name =>\n  match find (fun p => String.eqb (fst p) name) vt_table with Some (_, s) => Some s | None => None end.\n')
open(root + '/rocq/theories/Schemas.v', 'w').write('\n'.join(w))
print(len(msgs), 'messages', count, 'fields')
