"""Reader for the goto program in /repo/machine.go (ragel -G1 output)."""
import re,sys
src=open('/repo/machine.go').read().split('\n')
# find resume switch
i=next(k for k,l in enumerate(src) if l.strip()=='switch m.cs {')
D=r'\(m\.data\)\[\(m\.p\)\]'
def parse_block(k):
    """parse statements till closing '}' / 'case' at this level; return (list, k)"""
    out=[]
    while True:
        l=src[k].strip()
        if l=='' : k+=1; continue
        if l=='}' or l.startswith('case ') or l=='default:' : return out,k
        m=re.match(r'goto (\w+)$',l)
        if m: out.append(('goto',m.group(1),k+1)); k+=1; continue
        if re.match(r'switch '+D+r' \{$',l):
            k+=1; cases=[]
            while src[k].strip()!='}':
                m=re.match(r'case (\d+):$',src[k].strip()); b,k=parse_block(k+1)
                cases.append((int(m.group(1)),b))
            out.append(('vswitch',cases)); k+=1; continue
        if l=='switch {':
            k+=1; cases=[]
            while src[k].strip()!='}':
                t=src[k].strip()
                if t=='default:': c=('true',)
                else:
                    m=re.match(r'case '+D+r' (<|>|>=|<=) (\d+):$',t); c=('cmp',m.group(1),int(m.group(2)))
                b,k=parse_block(k+1); cases.append((c,b))
            out.append(('cswitch',cases)); k+=1; continue
        m=re.match(r'if '+D+r' == (\d+) \{$',l)
        if m:
            b,k=parse_block(k+1); assert src[k].strip()=='}'; k+=1
            out.append(('if',('eq',int(m.group(1))),b)); continue
        m=re.match(r'if (\d+) <= '+D+r' && '+D+r' <= (\d+) \{$',l)
        if m:
            b,k=parse_block(k+1); assert src[k].strip()=='}'; k+=1
            out.append(('if',('rng',int(m.group(1)),int(m.group(2))),b)); continue
        raise Exception((k+1,l))
states={}
k=i+1
while src[k].strip()!='}':
    m=re.match(r'case (\d+):$',src[k].strip()); k0=k+1
    b,k=parse_block(k+1)
    states[int(m.group(1))]=(b,k0,k)
endsw=k
def ev(b,c):
    for s in b:
        if s[0]=='goto': return s[1]
        if s[0]=='vswitch':
            for v,bb in s[1]:
                if v==c:
                    r=ev(bb,c)
                    if r: return r
                    break
        if s[0]=='cswitch':
            for cd,bb in s[1]:
                ok= cd[0]=='true' or {'<':c<cd[2],'>':c>cd[2],'>=':c>=cd[2],'<=':c<=cd[2]}[cd[1]] if cd[0]!='true' else True
                if ok:
                    r=ev(bb,c)
                    if r: return r
                    break
        if s[0]=='if':
            cd=s[1]
            ok= c==cd[1] if cd[0]=='eq' else cd[1]<=c<=cd[2]
            if ok:
                r=ev(s[2],c)
                if r:return r
    return None
trs={}
k=endsw+1
while True:
    l=src[k].strip()
    m=re.match(r'(tr\d+):$',l)
    if m:
        m2=re.match(r'm\.cs = (\d+)$',src[k+1].strip()); m3=re.match(r'goto (\w+)$',src[k+2].strip())
        trs[m.group(1)]=(int(m2.group(1)),m3.group(1),k+1,k+3); k+=3; continue
    if re.match(r'f\d+:$',l): break
    assert l=='',(k,l)
    k+=1
fstart=k
