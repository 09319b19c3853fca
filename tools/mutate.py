#!/usr/bin/env python3
"""Run wrong-program mutants: each edits the model in a scratch copy and rebuilds (make -k).
Usage: mutate.py mutants.json out.jsonl [jobs]"""
import json,sys,os,re,shutil,subprocess,concurrent.futures as cf
SRC=os.environ.get('SRC','/verif/rocq')
def thm_at(path,line):
    name=None
    for i,l in enumerate(open(path),1):
        m=re.match(r'\s*(?:Theorem|Lemma|Corollary|Example|Definition|Fixpoint|Fact|Remark|Ltac|Record)\s+(\w+)',l)
        if m: name=m.group(1)
        if i>=line: break
    return name
def run(m):
    d=f"/tmp/mut/{m['id']}"
    shutil.rmtree(d,ignore_errors=True); shutil.copytree(SRC,d,symlinks=True)
    for ed in m['edits']:
        f,old,new=ed[:3]
        p=f'{d}/theories/{f}'; s=open(p).read()
        if len(ed)>3: # replace the first occurrence after an anchor
            i=s.find(ed[3]); j=s.find(old,i) if i>=0 else -1
            if j<0: shutil.rmtree(d); return dict(id=m['id'],error=f'anchored pattern not found in {f}: {ed[3][:40]} / {old[:60]}')
            open(p,'w').write(s[:j]+new+s[j+len(old):]); continue
        if s.count(old)<1: shutil.rmtree(d); return dict(id=m['id'],error=f'pattern not found in {f}: {old[:60]}')
        n=m.get('count',1)
        if s.count(old)!=n and n!=0: shutil.rmtree(d); return dict(id=m['id'],error=f'{s.count(old)} matches in {f}: {old[:60]}')
        open(p,'w').write(s.replace(old,new))
    try:
        r=subprocess.run(['make','-j2']+(['-k'] if os.environ.get('KEEP','1')=='1' else []),cwd=d,capture_output=True,text=True,timeout=1500)
        out=r.stdout+r.stderr; ok=r.returncode==0
    except subprocess.TimeoutExpired as e:
        out=((e.stdout or b'').decode()+(e.stderr or b'').decode()); ok=False
    failed=[]
    for f,l in re.findall(r'File "\./theories/(\w+\.v)", line (\d+)',out):
        t=thm_at(f'{d}/theories/{f}',int(l))
        if f'{f}:{t}' not in failed: failed.append(f'{f}:{t}')
    msg=re.findall(r'Error:?[^\n]*\n?[^\n]*',out)[:3]
    shutil.rmtree(d,ignore_errors=True)
    return dict(id=m['id'],survived=ok,failed=failed,msg=msg)
ms=json.load(open(sys.argv[1]))
with cf.ThreadPoolExecutor(int(sys.argv[3]) if len(sys.argv)>3 else 2) as ex, open(sys.argv[2],'a') as o:
    for r in ex.map(run,ms):
        o.write(json.dumps(r)+'\n'); o.flush(); print(r['id'],'SURVIVED' if r.get('survived') else r.get('error') or r['failed'],flush=True)
