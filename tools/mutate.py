#!/usr/bin/env python3
"""Mutation testing of the theorems.

usage: mutate.py [-j N] SPEC.json [id ...]

Every mutation of SPEC.json edits one definition of a *Model.v file.  The edit is made in a scratch copy outside /verif.
Every file that depends on the edited one is rebuilt; a proof that no longer goes through is replaced by [Admitted] in the
scratch copy and the build goes on.  A claim theorem (Cnn_...) counts as failed when its own proof broke or when it now
depends on an admitted lemma.  One JSON line per mutation is appended to /tmp/mutate_out.jsonl; tools/log_mutants.py moves them to seeded/LOG.jsonl.
"""
import json, os, re, subprocess, sys, shutil
from concurrent.futures import ThreadPoolExecutor

VERIF = os.environ.get('BASE', '/verif')  # a built copy to start from
SCRATCH = '/tmp/mutants'
OPENERS = re.compile(r'^(?:#\[[^\]]*\]\s*)*(?:Local |Global |Program )?(?:Theorem|Lemma|Example|Corollary|Fact|Remark|Proposition|Definition|Instance|Fixpoint)\s+([\w\']+)')

def sentences(src):
    """Split into (text, start, end) sentences; comments are skipped."""
    out, i, n, start = [], 0, len(src), None
    while i < n:
        if src.startswith('(*', i):
            d, i = 1, i + 2
            while d:
                if src.startswith('(*', i): d += 1; i += 2
                elif src.startswith('*)', i): d -= 1; i += 2
                else: i += 1
            continue
        c = src[i]
        if start is None and not c.isspace():
            start = i
        if c == '"':
            i += 1
            while src[i] != '"': i += 1
            i += 1
            continue
        if c == '.' and (i + 1 == n or src[i + 1].isspace()) and not (src[i-1] == '.' and src[i-2] == '.'):
            out.append((src[start:i + 1], start, i + 1))
            start = None
        i += 1
    return out

def strip_comments(s):
    res, i, d = [], 0, 0
    while i < len(s):
        if s.startswith('(*', i): d += 1; i += 2
        elif s.startswith('*)', i) and d: d -= 1; i += 2
        else:
            if not d: res.append(s[i])
            i += 1
    return ''.join(res)

def blocks(src):
    """Proof blocks: (name, statement text, proof start, proof end) by character offsets."""
    ss, res, k = sentences(src), [], 0
    while k < len(ss):
        t = ss[k][0].strip()
        if (t == 'Proof.' or t.startswith('Proof using')) and k:
            m = OPENERS.match(strip_comments(ss[k - 1][0]).strip())
            e = k
            while ss[e][0].strip() not in ('Qed.', 'Defined.', 'Admitted.') and not re.search(r'[\s}]?(Qed|Defined)\.$', ss[e][0]): e += 1
            res.append((m.group(1) if m else None, ss[k - 1][0], ss[k][1], ss[e][2], k, e))
            k = e
        k += 1
    return ss, res

def discover(d, f, tmo):
    """Names of the blocks of theories/f that no longer check (coqtop, one pass)."""
    src = open(f'{d}/theories/{f}').read()
    ss, bl = blocks(src)
    starts = {b[4]: b for b in bl}
    ends = {b[5]: b for b in bl}
    script = ['Set Silent.', f'Set Default Timeout {tmo}.']
    for k, (t, _, _) in enumerate(ss):
        t = ' '.join(strip_comments(t).split())
        if t.startswith('Print Assumptions'): continue
        script.append(t)
        if k in ends:
            b = ends[k]
            script += ['Abort All.', ' '.join(strip_comments(b[1]).split()), 'Admitted.', 'Abort All.']
    p = subprocess.run(['coqtop', '-q', '-Q', 'theories', 'Verif'], input='\n'.join(script) + '\n', cwd=d, text=True, capture_output=True, timeout=7200)
    out = p.stdout + p.stderr
    ok = set(re.findall(r"([\w']+)\s+already\s+exists", out))
    return [b[0] for b in bl if b[0] not in ok]

def admit(d, f, names):
    src = open(f'{d}/theories/{f}').read()
    _, bl = blocks(src)
    for b in reversed(bl):
        if b[0] in names:
            src = src[:b[2]] + 'Proof. Admitted.' + src[b[3]:]
    open(f'{d}/theories/{f}', 'w').write(src)

def coqc(d, f, tmo=3000):
    try:
        p = subprocess.run(['coqc', '-q', '-Q', 'theories', 'Verif', f'theories/{f}'], cwd=d, text=True, capture_output=True, timeout=tmo)
        return p.returncode == 0, p.stdout + p.stderr
    except subprocess.TimeoutExpired:
        return False, 'timeout'

def project(d):
    files = [l.strip()[len('theories/'):] for l in open(f'{d}/_CoqProject') if l.strip().startswith('theories/')]
    deps = {}
    for f in files:
        src = open(f'{d}/theories/{f}').read()
        req = set()
        for m in re.finditer(r'From Verif Require (?:Import|Export)?\s*([^.]*)\.\s', src):
            req |= {x + '.v' for x in m.group(1).split()}
        deps[f] = req
    return files, deps

def run(mut):
    d = f'{SCRATCH}/{mut["id"]}'
    shutil.rmtree(d, ignore_errors=True)
    os.makedirs(SCRATCH, exist_ok=True)
    shutil.copytree(f'{VERIF}/rocq', d, ignore=shutil.ignore_patterns('*.glob', '*.vok', '*.vos', '.*.aux'))
    try:
        path = f'{d}/theories/{mut["file"]}'
        src = open(path).read()
        edits = mut.get('edits') or [[mut['old'], mut['new']]]
        for old, new in edits:
            if src.count(old) != 1: return dict(mut, error=f'edit text occurs {src.count(old)} times')
            src = src.replace(old, new)
        open(path, 'w').write(src)
        files, deps = project(d)
        dirty, admitted, broken = {mut['file']}, {}, []
        for _ in files:
            for f in files:
                if deps[f] & dirty: dirty.add(f)
        if mut['breaks'] and not mut.get('all'):
            # only what the theorems of the expected properties need
            want = set()
            for f in files:
                names = re.findall(r'(?m)^Theorem (C\d+)_', open(f'{d}/theories/{f}').read())
                if set(names) & set(mut['breaks']): want.add(f)
            for _ in files:
                for f in reversed(files):
                    if f in want: want |= deps[f]
            dirty &= want
        # in dependency order (the order of _CoqProject is not relied on)
        done, order, todo = set(files) - dirty, [], [f for f in files if f in dirty]
        while todo:
            for f in todo:
                if deps[f] <= done:
                    order.append(f); done.add(f); todo.remove(f); break
            else: return dict(mut, error='cycle ' + str(todo))
        for f in order: 
            for x in ('vo',):
                try: os.remove(f'{d}/theories/{f[:-2]}.{x}')
                except FileNotFoundError: pass
        for f in order:
            ok, out = coqc(d, f, mut.get('timeout', 1500))
            tries = 0
            while not ok and tries < 6:
                bad = discover(d, f, mut.get('step_timeout', 60))
                if tries or not bad:
                    m = re.search(r'line (\d+), characters', out)
                    if not m: break
                    line = int(m.group(1)); srcf = open(f'{d}/theories/{f}').read()
                    off = len('\n'.join(srcf.split('\n')[:line - 1])) + 1
                    hit = [b[0] for b in blocks(srcf)[1] if b[2] - len(b[1]) - 5 <= off <= b[3]]
                    if not hit and not bad: break
                    bad = list(set(bad) | set(hit))
                admit(d, f, bad)
                admitted.setdefault(f, []).extend(bad)
                ok, out = coqc(d, f, mut.get('timeout', 1500))
                tries += 1
            if not ok:
                broken.append([f, out[-400:]])
                break
        adm = {n for l in admitted.values() for n in l}
        claims = []
        for f in order:
            claims += [b[0] for b in blocks(open(f'{d}/theories/{f}').read())[1] if b[0] and re.match(r'C\d+_', b[0])]
        claims = [c for c in claims if not re.search('example', c)]
        if broken:
            return dict(mut, error='does not build: ' + broken[0][0] + ': ' + broken[0][1])
        failed, survived = [c for c in claims if c in adm], []
        rest = [c for c in claims if c not in adm]
        if rest and adm:
            q = ''.join(f'From Verif Require Import {f[:-2]}.\n' for f in order)
            q += ''.join(f'Fail Check MARK_{c}.\nPrint Assumptions {c}.\n' for c in rest)
            p = subprocess.run(['coqtop', '-q', '-Q', 'theories', 'Verif'], input='Set Printing Width 10000.\n' + q, cwd=d, text=True, capture_output=True, timeout=7200)
            chunks = re.split(r'The reference MARK_(C\d+_[\w\']+) was not\s+found', p.stdout)
            for name, body in zip(chunks[1::2], chunks[2::2]):
                if name not in rest or name in failed or name in survived: continue
                ax = re.findall(r'(?m)^([\w\'\.]+)\s*:', body)
                (failed if any(a.split('.')[-1] in adm for a in ax) else survived).append(name)
            miss = [c for c in rest if c not in failed and c not in survived]
            if miss: return dict(mut, error='no assumptions read for ' + ' '.join(miss))
        else:
            survived = rest
        return dict(mut, failed=sorted(failed), survived=sorted(survived), admitted=admitted)
    finally:
        if not os.environ.get('KEEP'): shutil.rmtree(d, ignore_errors=True)

def main():
    args = sys.argv[1:]
    j = 3
    if args[0] == '-j': j = int(args[1]); args = args[2:]
    muts = json.load(open(args[0]))
    if len(args) > 1: muts = [m for m in muts if m['id'] in args[1:]]
    def go(m):
        try: r = run(m)
        except Exception as e: r = dict(m, error=repr(e))
        res = {'id': r['id'], 'file': r['file'], 'definition': r['definition'], 'edit': r['edit'], 'claim': r['claim'], 'breaks': r['breaks']}
        if 'error' in r: res['error'] = r['error']
        else:
            res['theorems_failed'] = r['failed']
            res['properties_survived'] = sorted({b for b in r['breaks'] if not any(f.startswith(b + '_') and 'refuted' not in f for f in r['failed'])})
            res['theorems_tightened'] = []
            res['lemmas_broken'] = sum(len(v) for v in r['admitted'].values())
            res['survived'] = r['survived']
        with open('/tmp/mutate_out.jsonl', 'a') as o: o.write(json.dumps(res) + '\n')
        print(r['id'], 'ERROR ' + r['error'] if 'error' in r else f"failed {len(r['failed'])} survived {len(r['survived'])} NOT CAUGHT {res['properties_survived']}", flush=True)
    with ThreadPoolExecutor(j) as ex: list(ex.map(go, muts))
main()
