#!/usr/bin/env python3
"""Rebuild the development with one edited definition and report what no longer proves.

usage: mutate.py MUTANTS.json   (a list of {"definition","file","old","new","edit","claim"}; "old" must occur exactly
once in the file unless "nth" says which occurrence).  Results are appended to /verif/seeded/LOG.jsonl; the edited copy
lives in /tmp/scratch."""
import glob, json, os, re, shutil, subprocess, sys
# BASE: a frozen, built copy of /verif/rocq, so that unfinished work does not interfere
SRC, DST = '/tmp/base/rocq', '/tmp/scratch/rocq'

def items(path):
    """(name, text, first line) of every named sentence block."""
    src = open(path).read()
    heads = [(m.start(), m.group(2)) for m in re.finditer(
        r'^\s*(?:#\[[^\]]*\]\s*)?(Lemma|Theorem|Example|Definition|Fixpoint|Record|Inductive|Instance|Fact|Corollary)\s+(\w+\'*)', src, re.M)]
    out = []
    for k, (pos, name) in enumerate(heads):
        end = heads[k + 1][0] if k + 1 < len(heads) else len(src)
        out.append((name, src[pos:end], src.count('\n', 0, pos) + 2 if src[pos] == '\n' else src.count('\n', 0, pos) + 1))
    return out

def requires(root):
    """file -> the files it imports, transitively."""
    direct = {}
    for f in glob.glob(root + '/theories/*.v'):
        mods = []
        for m in re.finditer(r'From Verif Require (?:Import|Export)?\s*([^.]*)\.', open(f).read()): mods += m.group(1).split()
        direct[os.path.basename(f)] = [m + '.v' for m in mods]
    out = {}
    def go(f):
        if f not in out:
            out[f] = set()
            for d in direct.get(f, []): out[f] |= {d} | go(d)
        return out[f]
    for f in direct: go(f)
    return out

def graph(root):
    """(file, name) -> the (file, name) it mentions."""
    req, defs, words = requires(root), {}, {}
    for f in glob.glob(root + '/theories/*.v'):
        b = os.path.basename(f)
        for name, text, _ in items(f):
            defs.setdefault(name, set()).add(b)
            words.setdefault((b, name), set()).update(re.findall(r"[A-Za-z_]\w*'*", re.sub(r'\(\*.*?\*\)', '', text, flags=re.S)))
    g = {}
    for (b, name), ws in words.items():
        g[b, name] = set()
        for w in ws & set(defs):
            if b in defs[w]: g[b, name].add((b, w))
            else: g[b, name] |= {(d, w) for d in defs[w] & req[b]}
        g[b, name].discard((b, name))
    return g

def closure(g, n, memo):
    if n in memo: return memo[n]
    memo[n] = seen = set()
    todo = [n]
    while todo:
        x = todo.pop()
        for y in g.get(x, ()):
            if y not in seen:
                seen.add(y); todo.append(y)
    return seen

def make(quiet=True):
    # a file whose check does not end in fifteen minutes counts as failed
    wrap = '/tmp/scratch/coqc'
    open(wrap, 'w').write('#!/bin/sh\ntimeout 900 coqc "$@"\nr=$?\nfor f; do :; done\n'
                          '[ $r = 124 ] && printf \'File "./%s", line 1, characters 0-0:\\nError: timeout\\n\' "$f"\nexit $r\n')
    os.chmod(wrap, 0o755)
    p = subprocess.run(['make', '-k', '-j4', 'COQC=' + wrap], cwd=DST, stdout=subprocess.PIPE, stderr=subprocess.STDOUT, text=True, timeout=7200)
    return p.stdout

def main():
    muts = json.load(open(sys.argv[1]))
    os.makedirs('/tmp/scratch', exist_ok=True)
    g = graph(SRC); memo = {}
    props = [(os.path.basename(f), n) for f in sorted(glob.glob(SRC + '/theories/*Props.v')) for n, t, _ in items(f) if re.match(r'\s*Theorem', t)]
    for m in muts:
        shutil.rmtree(DST, ignore_errors=True); subprocess.run(['cp', '-a', SRC, DST], check=True)
        if not os.path.exists(DST + '/Makefile'):
            subprocess.run(['coq_makefile', '-f', '_CoqProject', '-o', 'Makefile'], cwd=DST, check=True)
        path = f'{DST}/theories/{m["file"]}'
        s = open(path).read()
        n = s.count(m['old'])
        if n != 1 and 'nth' not in m:
            print('SKIP', m['definition'], 'pattern occurs', n, 'times'); continue
        k = m.get('nth', 0)
        parts = s.split(m['old'])
        s2 = m['old'].join(parts[:k + 1]) + m['new'] + m['old'].join(parts[k + 1:])
        open(path, 'w').write(s2)
        out = make()
        fails = re.findall(r'File "\./theories/(\w+\.v)", line (\d+), characters[^\n]*\n(Error[^\n]*)?', out)
        failed = []
        for f, line, err in fails:
            if not err and 'Error' not in out: continue
            if 'timeout' in err:
                failed += [(f, '(timeout)')] + [x for x in g if x[0] == f and x not in failed]
                continue
            its = items(f'{DST}/theories/{f}')
            best = None
            for name, _, l in its:
                if l <= int(line): best = name
            if (f, best) not in failed: failed.append((f, best))
        slow = {f for f, b in failed if b == '(timeout)'}
        names = [b for f, b in failed if f not in slow] + [f + ' does not end' for f in sorted(slow)]
        thms = [p[1] for p in props if any(b == p or b in closure(g, p, memo) for b in failed)]
        rec = {'definition': m['definition'], 'edit': m['edit'], 'claim': m['claim'],
               'failed_lemmas': names, 'failed': thms, 'tightened': m.get('tightened', [])}
        print(m['definition'], '|', m['edit'], '->', names or 'SURVIVED', '|', len(thms), 'theorems', thms[:12], flush=True)
        if m.get('log', True):
            with open('/verif/seeded/LOG.jsonl', 'a') as fh: fh.write(json.dumps(rec) + '\n')
main()
