#!/usr/bin/env python3
"""Writes rocq/theories/Props*.v: one theorem per proof lemma `CNN_x_proof` of the Pf*.v files,
with the example from examples.txt that meets its hypotheses, and Print Assumptions.
Also checks MANIFEST.json against the theorems."""
import json, re, sys, os
root = os.path.dirname(os.path.dirname(os.path.abspath(__file__)))
th = root + '/rocq/theories/'
props = {}
for l in open(root + '/properties.jsonl'):
    if l.strip():
        p = json.loads(l); props[p['id']] = p

GROUPS = json.load(open(root + '/tools/groups.json'))

ex = {}
cur = None
for l in open(root + '/tools/examples.txt'):
    if l.startswith('@@ '):
        cur = l[3:].strip(); ex.setdefault(cur, [])
    elif cur: ex[cur].append(l)
ex = {k: ''.join(v).strip() for k, v in ex.items()}

def strip_comments(s):
    out = ''; d = 0; i = 0
    while i < len(s):
        if s[i:i+2] == '(*': d += 1; i += 2; continue
        if s[i:i+2] == '*)': d -= 1; i += 2; continue
        if d == 0: out += s[i]
        i += 1
    return out

def split_arrows(s):
    parts = []; d = 0; cur = ''; i = 0; q = False
    while i < len(s):
        c = s[i]
        if c == '"': q = not q
        if not q:
            if c in '([{': d += 1
            if c in ')]}': d -= 1
            if d == 0 and s[i:i+2] == '->' and (i == 0 or s[i-1] != '<'):
                parts.append(cur.strip()); cur = ''; i += 2; continue
        cur += c; i += 1
    parts.append(cur.strip())
    return parts

lemmas = {}
for f in open(root + '/rocq/_CoqProject').read().split():
    if '/Pf' not in f: continue
    s = open(root + '/rocq/' + f).read()
    for m in re.finditer(r'(?:Lemma|Theorem) (C\d\d\d?_\w+)_proof\s*:(.*?)\.\nProof', s, re.S):
        lemmas[m.group(1)] = (f.split('/')[-1][:-2], m.group(2).strip())

def hyps(stmt):
    s = strip_comments(stmt)
    m = re.match(r'forall (.*?),\s', s, re.S)
    vs = []
    body = s
    if m:
        vs = re.findall(r'\([^)]*\)|\S+', m.group(1)); body = s[m.end():]
    parts = split_arrows(body)
    return vs, parts[:-1]

bad = []
for g, spec in GROUPS.items():
    out = ['(** * ' + spec['title'] + ': the theorems\n\n    Written by tools/gen_props.py: the statements are those of the lemmas proved in\n    ' + ', '.join(spec['files']) + '.\n    Below each theorem, a concrete case that meets its hypotheses. *)\n\n']
    out.append('From Verif Require Import ' + ' '.join(spec['requires']) + '.\n' + spec.get('pre', '') + '\n')
    names = [n for n, (f, _) in lemmas.items() if f in spec['files']]
    names.sort(key=lambda n: (int(re.match(r'C(\d+)', n).group(1)), list(lemmas).index(n)))
    lastid = None
    for n in names:
        f, stmt = lemmas[n]
        pid = n.split('_')[0]
        if pid != lastid:
            p = props[pid]; lastid = pid
            out.append('(** ** ' + pid + ' ' + p['title'].replace('*)', '* )') + ' *)\n\n')
        out.append('Theorem ' + n + ' : ' + stmt + '.\nProof. exact ' + n + '_proof. Qed.\nPrint Assumptions ' + n + '.\n')
        if stmt.startswith('exists') and n not in ex:
            out.append('(* The theorem is itself a concrete case. *)\n\n'); continue
        if n not in ex: bad.append(n); out.append('\n'); continue
        raw = ex[n]
        for blk in re.split(r'^--$\n', raw, flags=re.M):
            blk = blk.strip()
            if blk.startswith('w:'):
                lines = blk.split('\n'); ws = [x.strip() for x in lines[0][2:].split(';')]
                tail = '\n'.join(lines[1:])
                suffix = ''
                mm = re.match(r'name: (\S+)\n?', tail)
                if mm: suffix = mm.group(1); tail = tail[mm.end():]
                vs, hs = hyps(stmt)
                used = [v for v in vs if any(re.search(r'(?<![\w\'])' + re.escape(re.sub(r'[(:].*', '', v.strip('('))).strip() + r'(?![\w\'])', h) for h in hs)]
                if len(ws) != len(used): print('witness count', n, used, ws); sys.exit(1)
                tacs = ['eexists' if x == '_' else 'exists (' + x + ')' for x in ws]
                out.append('Example ' + n + '_met' + suffix + ' : exists ' + ' '.join(used) + ',\n  ' + ' /\\\n  '.join(re.sub(r'\s+', ' ', h) if not h.startswith('forall') else '(' + h + ')' for h in hs) + '.\nProof.\n  ' + '; '.join(tacs) + '.\n  meet.' + ('\n' + tail if tail.strip() else '') + '\nQed.\n')
            else: out.append(blk + '\n')
        out.append('\n')
    open(th + g + '.v', 'w').write(''.join(out).rstrip() + '\n')
for n in ex:
    if n not in lemmas: print('example for unknown theorem', n)
if bad: print('no example:', *bad)

notes = json.load(open(root + '/tools/notes.json'))
also = {'C02': ['C60_deleted_code_unusable'], 'C03': ['C60_deleted_code_unusable']}
claims = []
grouped = {f for s in GROUPS.values() for f in s['files']}
for pid in props:
    ts = [n for n, (f, _) in lemmas.items() if n.split('_')[0] == pid and f in grouped]
    if not ts:
        if pid in notes and notes[pid].startswith('NA'): claims.append({'property': pid, 'status': 'not_applicable', 'theorems': [], 'note': notes[pid][3:].strip()})
        else: print('no theorem for', pid)
        continue
    st = 'partial' if any(n.endswith('_partial') or n.endswith('_refuted') for n in ts) else 'proved'
    claims.append({'property': pid, 'status': st, 'theorems': ts + also.get(pid, []), 'note': notes.get(pid, '')})
    if st == 'partial' and pid not in notes: print('no note for', pid)
with open(root + '/MANIFEST.json', 'w') as o:
    o.write('{"claims": [\n' + ',\n'.join(json.dumps(c) for c in claims) + '\n]}\n')
