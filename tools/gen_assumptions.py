"""Prints the assumptions of every theorem in MANIFEST.json (needs a built tree)
and writes them into DESIGN.md between the two markers."""
import json,os,re,subprocess,tempfile
root='/verif'
names=[]
for c in json.load(open(root+'/MANIFEST.json'))['claims']:
    for t in c['theorems']:
        if t not in names: names.append(t)
where={}
for f in sorted(os.listdir(root+'/rocq/theories')):
    if f.endswith('.v'):
        for m in re.finditer(r'^Theorem (\w+)',open(root+'/rocq/theories/'+f).read(),re.M): where.setdefault(m[1],f[:-2])
mods=sorted({where[n] for n in names})
src='From Verif Require %s.\n'%' '.join(mods)
for n in names: src+='Goal True. idtac "@@ %s". Abort.\nPrint Assumptions %s.%s.\n'%(n,where[n],n)
d=tempfile.mkdtemp(); open(d+'/A.v','w').write(src)
out=subprocess.run(['coqc','-Q',root+'/rocq/theories','Verif',d+'/A.v'],capture_output=True,text=True)
assert out.returncode==0,out.stderr
res={}
for part in out.stdout.split('@@ ')[1:]:
    n,_,rest=part.partition('\n'); res[n.strip()]=' '.join(rest.split())
groups={}
for n in names: groups.setdefault(res[n],[]).append(n)
txt=''
for a,ns in groups.items():
    txt+='`%s` (%d theorems):\n'%(a,len(ns))
    line=''
    for n in ns:
        if len(line)+len(n)>110: txt+=line.rstrip()+'\n'; line=''
        line+=n+', '
    txt+=line.rstrip(', ')+'.\n\n'
s=open(root+'/DESIGN.md').read()
a,b='<!-- assumptions -->\n','<!-- end -->'
i,j=s.index(a)+len(a),s.index(b)
open(root+'/DESIGN.md','w').write(s[:i]+txt.rstrip('\n')+'\n'+s[j:])
print({k:len(v) for k,v in groups.items()})
