#!/usr/bin/env python3
"""usage: auto.py BASE WORK RESULTS.jsonl SEED Uart.v,Zpi.v,... [SECONDS]
Wrong programs made by machine: one number, comparison, condition, string, exception or update of the model is changed at a time
in a copy of BASE (a built copy of rocq/ without RepoTests.v and without its Examples, so that only theorems can fail) and the
copy is rebuilt.  "survived" means that every theorem still proves."""
import re,os,sys,random,subprocess,json,time
BASE,WORK,RES=sys.argv[1],sys.argv[2],sys.argv[3]; seed=int(sys.argv[4]); files=sys.argv[5].split(',')
limit=float(sys.argv[6]) if len(sys.argv)>6 else 1e9
def sh(c): return subprocess.run(c,shell=True,stdout=subprocess.PIPE,stderr=subprocess.STDOUT,text=True).stdout
def mask(s):
    # positions in comments
    m=[0]*len(s); d=0;i=0
    while i<len(s):
        if s[i:i+2]=='(*': d+=1; m[i]=m[i+1]=1; i+=2; continue
        if s[i:i+2]=='*)' and d: m[i]=m[i+1]=1; d-=1; i+=2; continue
        m[i]=1 if d else 0; i+=1
    return m
SW=[('<=?','<?'),('<?','<=?'),('&&','||'),('||','&&'),('true','false'),('false','true'),('=?','<=?'),('negb ',''),('Some','')]
def sites(f):
    s=open(BASE+'/theories/'+f).read(); m=mask(s); out=[]
    def add(a,b,new,k):
        if any(m[a:b]): return
        line=s.rfind('\n',0,a)+1
        l=s[line:s.find('\n',a)]
        if l.startswith('From ') or l.startswith('Require') or l.startswith('Open') or l.startswith('Notation') or l.startswith('Import') or l.startswith('Arguments') or 'Scope' in l: return
        out.append((f,a,b,new,k))
    for x in re.finditer(r'(?<![\w"%.])(\d+)(?![\w"])',s):
        n=int(x.group(1)); add(x.start(),x.end(),str(n+1),'num'); 
        if n>0: add(x.start(),x.end(),str(n-1),'num')
    for x in re.finditer(r'<=\?|<\?|(?<![<])=\?|&&|\|\|',s):
        t=x.group(0)
        for a,b in SW:
            if a==t: add(x.start(),x.end(),b,'op')
    for x in re.finditer(r'\b(true|false)\b',s): add(x.start(),x.end(),'false' if x.group(1)=='true' else 'true','bool')
    for x in re.finditer(r'negb ',s): add(x.start(),x.end(),'','neg')
    for x in re.finditer(r'\bif ([^:=]*?) then ',s):
        add(x.start(1),x.end(1),'negb (%s)'%x.group(1),'cond'); add(x.start(1),x.end(1),'true','cond'); add(x.start(1),x.end(1),'false','cond')
    for x in re.finditer(r'"[^"\n]+"',s): add(x.start()+1,x.end()-1,s[x.start()+1:x.end()-1]+'x','str')
    # exceptions swapped
    for x in re.finditer(r'\b(TimeoutError|CancelledError|KeyError|ValueError|TypeError|AttributeError|RuntimeError|StopIteration|AssertionError|IndexError|OverflowError)\b',s):
        add(x.start(),x.end(),'KeyError' if x.group(1)!='KeyError' else 'ValueError','exn')
    for x in re.finditer(r'\b(SREQ|SRSP|AREQ)\b',s): add(x.start(),x.end(),{'SREQ':'SRSP','SRSP':'AREQ','AREQ':'SRSP'}[x.group(1)],'ctor')
    for x in re.finditer(r'\b(SYS|ZDO|AF|UTIL|SAPI|APP_CNF)\b',s): add(x.start(),x.end(),'SYS' if x.group(1)!='SYS' else 'ZDO','ctor')
    # set_x v (set_y ...) dropping a state update:  (set_foo E s) -> s
    for x in re.finditer(r'\((set_\w+) (\w+|\[\]|None|\([^()]*\)) (s|w|h|m)\)',s): add(x.start(),x.end(),x.group(3),'drop')
    for x in re.finditer(r' \+ ',s): add(x.start(),x.end(),' - ','arith')
    for x in re.finditer(r' - (?=\w)',s): add(x.start(),x.end(),' + ','arith')
    for x in re.finditer(r'(\w+|\([^()]*\)) \+\+ (\w+|\([^()]*\))',s):
        add(x.start(),x.end(),x.group(1),'app'); add(x.start(),x.end(),x.group(2),'app'); add(x.start(),x.end(),x.group(2)+' ++ '+x.group(1),'app')
    return out
rnd=random.Random(seed); per={f:sites(f) for f in files}
for f in per: rnd.shuffle(per[f])
print({f:len(v) for f,v in per.items()}, flush=True)
done=set()
if os.path.exists(RES):
    for l in open(RES): j=json.loads(l); done.add((j['file'],j['at'],j['new']))
t00=time.time()
sh('rm -rf %s && cp -a %s %s'%(WORK,BASE,WORK))
while any(per.values()) and time.time()-t00<limit:
    for f in files:
        if not per[f]: continue
        (_,a,b,new,k)=per[f].pop()
        if (f,a,new) in done: continue
        t0=time.time()
        sh('rm -rf %s && cp -a %s %s'%(WORK,BASE,WORK))
        p=WORK+'/theories/'+f; s=open(p).read(); t=s[:a]+new+s[b:]
        open(p,'w').write(t)
        ln=s.count('\n',0,a)
        out=sh('cd %s && ulimit -v 7000000; timeout 2400 make -j2 2>&1'%WORK)
        e=re.search(r'File "\./theories/(\w+\.v)", line (\d+), characters [^\n]*\n(?!Warning)(.*\n?.*)',out)
        errs=[x for x in re.finditer(r'File "\./theories/(\w+\.v)", line (\d+), characters [^\n]*\n(?!Warning)([^\n]*\n?[^\n]*)',out) if 'Error' in out[x.end()-200:x.end()+50]]
        r='survived'
        if re.search(r'\*\*\*',out):
            r='killed'
            if errs and all(x.group(1)==f for x in errs): r='invalid'
        first=[(x.group(1),int(x.group(2))) for x in errs][:2]
        j=dict(file=f,line=ln+1,at=a,kind=k,old=s.split('\n')[ln].strip(),mut=t.split('\n')[ln].strip(),new=new,result=r,first=first,secs=round(time.time()-t0))
        open(RES,'a').write(json.dumps(j)+'\n')
        print(r,f,ln+1,k,j['old'][:150],'==>',new[:60],first,j['secs'],flush=True)
