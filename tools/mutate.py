"""Seed one wrong edit at a time into a scratch copy of the model and see which theorems stop
proving.  Usage: python3 tools/mutate.py batch.json   (list of {file, def, old, new, edit, claim})
With MUTTARGET=theories/X.vo only what X needs is rebuilt; with .vok targets the proofs of other files are skipped.
Appends one line per attempt to /verif/seeded/LOG.jsonl."""
import json, os, re, subprocess, sys, shutil
SRC, DST = os.environ.get('MUTSRC', '/verif/rocq'), os.environ.get('MUTDIR', '/tmp/mut')
LOG = '/verif/seeded/LOG.jsonl'
def decl(text, line):
    name = '?'
    for i, l in enumerate(text.split('\n')[:line], 1):
        m = re.match(r'\s*(?:Lemma|Theorem|Example|Definition|Fixpoint|Corollary|Remark|Fact)\s+([\w\']+)', l)
        if m: name = m.group(1)
    return name
for mu in json.load(open(sys.argv[1])):
    shutil.rmtree(DST, ignore_errors=True); subprocess.run(['cp', '-a', SRC, DST], check=True)
    p = DST + '/theories/' + mu['file']
    s = open(p).read()
    assert s.count(mu['old']) == 1, (s.count(mu['old']), mu)
    open(p, 'w').write(s.replace(mu['old'], mu['new']))
    r = subprocess.run('coq_makefile -f _CoqProject -o Makefile >/dev/null; timeout 3000 make -k -j' + os.environ.get('MUTJ', '3') + ' COQC="timeout ' + os.environ.get('MUTT', '400') + ' coqc" ' + mu.get('target', os.environ.get('MUTTARGET', '')) + ' 2>&1', shell=True, cwd=DST, capture_output=True, text=True)
    failed = []
    for m in re.finditer(r'File "\./theories/(\w+\.v)", line (\d+)[^\n]*\n(?!Warning)', r.stdout):
        after = r.stdout[m.end():m.end()+8]
        if after.startswith('Warning'): continue
        f, ln = m.group(1), int(m.group(2))
        n = f[:-2] + '.' + decl(open(DST + '/theories/' + f).read(), ln)
        if n not in failed: failed.append(n)
    for m in re.finditer(r'theories/(\w+)\.vo[sk]?\] Error 1(24|37)', r.stdout): failed.append(m.group(1) + ' (does not finish)')
    if r.returncode and not failed: failed.append('build fails: ' + r.stdout[-200:])
    if mu['file'][:-2] + '.' + mu['def'] in failed: print('INVALID ', mu['def'], flush=True); continue  # the edit does not typecheck
    # a proof that only ran out of time has not been shown to fail
    caught = 'inconclusive' if failed and all('does not finish' in x for x in failed) else bool(failed)
    e = {'definition': mu['file'] + ':' + mu['def'], 'edit': mu.get('edit') or (mu['old'] + '  ==>  ' + mu['new']), 'claim_broken': mu['claim'],
         'theorems_failed': failed, 'caught': caught, 'theorems_tightened': mu.get('tightened', [])}
    with open(LOG, 'a') as f: f.write(json.dumps(e, ensure_ascii=False) + '\n')
    print({True: 'CAUGHT ', False: '**SURVIVED** '}.get(caught, '??TIMEOUT '), mu['def'], failed, flush=True)
