#!/usr/bin/env python3
"""Generate mechanical mutants of the model's definitions (comparison flips, dropped checks, swapped operands, flipped flags).
Usage: automut.py seed per_file out.json"""
import re,random,json,sys
T='/verif/rocq/theories/'
FILES={'State':10,'Calc':6,'Controller':50,'Tx':3,'Periph':24,'Client':24,'Jup':20,'JupMeta':5,'Wire':8,'Serde':8,'Cli':10,'CliSync':6,'CliAdmin':8,'PeriphCli':8,'Rent':6,'RentCli':5,'Fee':16}
rng=random.Random(int(sys.argv[1])); scale=float(sys.argv[2])
def balanced(s,i):
    d=0
    for j in range(i,len(s)):
        if s[j]=='(':d+=1
        elif s[j]==')':
            d-=1
            if d==0: return j
    return -1
def blank_comments(s):
    out=list(s);d=0;i=0
    while i<len(s):
        if s.startswith('(*',i): d+=1; out[i]=out[i+1]=' '; i+=2; continue
        if s.startswith('*)',i) and d: d-=1; out[i]=out[i+1]=' '; i+=2; continue
        if d and s[i]!='\n': out[i]=' '
        i+=1
    return ''.join(out)
ms=[]
for f,n in FILES.items():
    src=open(T+f+'.v').read(); b=blank_comments(src); c=[]
    for m in re.finditer(r'^(Definition|Fixpoint)\s+(\w+).*?\.\s*$(?=\n)',b,re.M|re.S):
        name=m.group(2); s,e=m.span(); body=b[s:e]; k=body.find(':=')
        if k<0: continue
        def add(i,j,new,desc):
            if src[s+i:s+j]!=new: c.append((name,s+i,s+j,new,desc))
        for x in re.finditer(r'<=\?',body[k:]): add(k+x.start(),k+x.end(),'<?','<= made <')
        for x in re.finditer(r'<\?',body[k:]): add(k+x.start(),k+x.end(),'<=?','< made <=')
        for x in re.finditer(r'&&',body[k:]): add(k+x.start(),k+x.end(),'||','and made or')
        for x in re.finditer(r'\|\|',body[k:]): add(k+x.start(),k+x.end(),'&&','or made and')
        for x in re.finditer(r'\bguard \(',body[k:]):
            i=k+x.end()-1; j=balanced(body,i)
            if j>0: add(i,j+1,'true','check dropped: '+re.sub(r'\s+',' ',body[i:j+1])[:80])
        for x in re.finditer(r'\b_ <- [^;]*;;',body[k:]): add(k+x.start(),k+x.end(),'','step dropped: '+re.sub(r'\s+',' ',x.group())[:80])
        for x in re.finditer(r'\b(true|false)\b',body[k:]):
            add(k+x.start(),k+x.end(),'false' if x.group()=='true' else 'true','flag flipped')
        for x in re.finditer(r'\bnegb \(',body[k:]): add(k+x.start(),k+x.end(),'(','negation dropped')
        for x in re.finditer(r'\b(sgw|sg|wr|ro) (?=\w|\()',body[k:]):
            add(k+x.start(),k+x.start()+len(x.group(1)),{'sg':'sgw','wr':'ro','ro':'wr','sgw':'sg'}[x.group(1)],'account privilege changed')
        for x in re.finditer(r' ([+-]) (?=[\w(])',body[k:]): add(k+x.start(1),k+x.end(1),'-' if x.group(1)=='+' else '+','sign changed')
        for x in re.finditer(r'\b(src|dst)_(\w+)\b',body[k:]):
            o={'src':'dst','dst':'src'}[x.group(1)]+'_'+x.group(2)
            if re.search(r'\b'+o+r'\b',body): add(k+x.start(),k+x.end(),o,f'{x.group()} in place of {o}'[::1])
        for x in re.finditer(r'\b(s[io]|sa|la)_(src|dst)_(\w+)\b',body[k:]):
            o=x.group(1)+'_'+{'src':'dst','dst':'src'}[x.group(2)]+'_'+x.group(3)
            add(k+x.start(),k+x.end(),o,f'{o} in place of {x.group()}')
        for x in re.finditer(r'\b(div_ceil|ceil_div|floor_div)\b',body[k:]): pass
        for x in re.finditer(r'\b(\d+)\b',body[k:]):
            add(k+x.start(),k+x.end(),str(int(x.group())+1),f'{x.group()} made {int(x.group())+1}')
    n=max(1,int(n*scale)); rng.shuffle(c)
    for q,(name,i,j,new,desc) in enumerate(c[:n]):
        # unique context
        a,z=i,j
        while src.count(src[a:z])>1 and (z-a)<400: a=max(0,a-10); z=min(len(src),z+10)
        ms.append(dict(id=f'a{sys.argv[1]}_{f}_{q}',definition=f'{f}.{name}',edit=desc,claim='(mechanical)',edits=[[f+'.v',src[a:z],src[a:i]+new+src[j:z]]]))
rng.shuffle(ms)
json.dump(ms,open(sys.argv[3],'w'),indent=0); print(len(ms))
