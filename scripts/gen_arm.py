#!/usr/bin/env python3
"""Translate the inline assembly of /repo/src/*arm*/round.h (and
armv6m_lowsize/permutations.S) line by line into rocq/theories/ArmCode.v."""
import re,os
SRC='/repo/src'
out=[]
out.append('''(** * ArmCode.v -- the ARM assembly of the repository, one list element per
    source line.  Generated by scripts/gen_arm.py from the files cited. *)
From Coq Require Import NArith List.
From Verif Require Import Words Asm AsmArm.
Import ListNotations.
Local Open Scope N_scope.
''')
def imm(s):
    s=s.strip()
    assert s[0]=='#'
    return str(eval(s[1:]))
REN={'C':'rC','E':'rE'}
def parse(line,imms,regf):
    """one instruction -> coq term"""
    m=re.match(r'^(\w+)\s+(.*)$',line)
    op,args=m.group(1),m.group(2).strip()
    def o2(parts):
        # parts: list of operand strings
        p=parts[0]
        if p.startswith('#'): return '(I %s)'%imm(p)
        r=regf(p)
        if r[0]=='imm': return '(I %s)'%r[1]
        if len(parts)==1: return '(R %s)'%r[1]
        k,n=parts[1].split(None,1)
        return '(R%s %s %s)'%(k.upper(),r[1],imm(n))
    def rg(p):
        r=regf(p.strip()); assert r[0]=='reg',p; return r[1]
    if op in('push','pop'):
        return '%s %s'%(op.upper(),rg(args.strip('{} ')))
    if op=='ldrb':
        m=re.match(r'^(\S+), \[(\S+), #(\d+)\]$',args)
        if m: return 'LDRB %s %s %s'%(rg(m.group(1)),rg(m.group(2)),m.group(3))
        m=re.match(r'^(\S+), \[(\S+)\], #(\d+)$',args)
        return 'LDRBP %s %s %s'%(rg(m.group(1)),rg(m.group(2)),m.group(3))
    a=[x.strip() for x in args.split(',')]
    if op in('eor','orr','and','bic','orn','sub','add'):
        if len(a)==2: a=[a[0]]+a
        return '%s %s %s %s'%(op.upper(),rg(a[0]),rg(a[1]),o2(a[2:]))
    if op in('mvn','movs','mov'):
        return '%s %s %s'%({'mvn':'MVN'}.get(op,'MOV'),rg(a[0]),o2(a[1:]))
    if op in('lsl','lsr'):
        return '%s %s %s %s'%(op.upper(),rg(a[0]),rg(a[1]),imm(a[2]))
    if op=='ror':
        return 'ROR %s %s %s'%(rg(a[0]),rg(a[1]),rg(a[2]))
    raise Exception(line)
def blocks(fn):
    """yield (name, [(lineno,text)]) for each asm block"""
    name=None;cur=None
    for i,l in enumerate(open(fn),1):
        m=re.match(r'^(forceinline void|#define) (ROUND\w*)\(',l)
        if m and m.group(2) in('ROUND_LOOP','ROUND','ROUND5'): name=m.group(2)
        if '__asm__' in l: cur=[]; continue
        if cur is not None:
            m=re.match(r'^\s*"(.*?)\\n\\t"',l)
            if m: cur.append((i,m.group(1)))
            elif re.match(r'^\s*:',l):
                yield name,cur; cur=None
for d in ['armv7m','armv6','armv6m','bi32_armv7m','bi32_armv6','bi32_armv6m']:
    fn='%s/%s/round.h'%(SRC,d)
    for name,b in blocks(fn):
        loop=name=='ROUND_LOOP'
        used=set()
        def regf(p):
            m=re.match(r'^%\[(\w+)\]$',p)
            n=m.group(1)
            if not loop and n in('C_l','C','C_e','C_o'):
                used.add(n); return ('imm',{'C_l':'C','C':'C','C_e':'C_e','C_o':'C_o'}[n])
            return ('reg',REN.get(n,n))
        ins=[];tail=[]
        for ln,t in b:
            t=t.strip()
            if t.startswith('@') or t.startswith('rbegin') or t.startswith('rend'): continue
            if t.split()[0] in('cmp','bne','beq','b'): tail.append((ln,t)); continue
            assert not tail,(d,name,ln)
            ins.append(parse(t,None,regf))
        prm=''
        if not loop:
            prm=' (C : N)' if 'C_e' not in used else ' (C_e C_o : N)'
        out.append('(** src/%s/round.h l.%d-%d%s *)'%(d,b[0][0],b[-1][0],
           ('; the loop ends with: '+'; '.join(t for _,t in tail)) if tail else ''))
        out.append('Definition %s_%s%s : list arm :=\n  [ %s ].\n'%(d,name,prm,'\n  ; '.join(ins)))
# armv6m_lowsize/permutations.S: a complete function
fn=SRC+'/armv6m_lowsize/permutations.S'
parts=[[],[],[]];cur=0;tail=[];span=[[0,0],[0,0],[0,0]];on=False
PN={'ip':'r12','fp':'r11'}
def pregf(p):
    p=PN.get(p,p)
    assert re.match(r'^(r\d+|lr|pc)$',p),p
    return ('reg',p)
for i,l in enumerate(open(fn),1):
    t=l.split('@')[0].strip()
    if t=='P:': on=True; continue
    if not on or not t or t.startswith('.'): continue
    if t.startswith('rbegin'): cur=1; continue
    if t.startswith('rend'): cur=2; continue
    if t.split()[0] in('cmp','beq','b'): assert cur==1; tail.append(t); continue
    assert not(cur==1 and tail)
    t=re.sub(r'\s+',' ',t)
    op,args=t.split(' ',1)
    if span[cur][0]==0: span[cur][0]=i
    span[cur][1]=i
    def rg(p): return pregf(p.strip())[1]
    if op in('push','pop'):
        rs=[rg(x) for x in args.strip('{} ').split(',')]
        if op=='push': rs=rs[::-1]
        for r in rs: parts[cur].append('%s %s'%(op.upper(),r))
        continue
    m=re.match(r'^(\w+), \[(\w+)(?:, #(\d+))?\]$',args)
    if op in('ldr','str'):
        off=int(m.group(3) or 0); assert off%4==0
        if m.group(2)=='sp': parts[cur].append('%sSP %s %d'%(op.upper(),rg(m.group(1)),off//4))
        else: parts[cur].append('%s %s %s %d'%(op.upper(),rg(m.group(1)),rg(m.group(2)),off//4))
        continue
    m=re.match(r'^sp, sp, #(\d+)$',args)
    if m:
        parts[cur].append('%sSP %d'%(op.upper(),int(m.group(1))//4)); continue
    if op in('adds','subs','lsls','orrs'): op=op[:-1]
    parts[cur].append(parse(op+' '+args,None,pregf))
for nm,p,sp in zip(['prologue','body','epilogue'],parts,span):
    out.append('(** src/armv6m_lowsize/permutations.S l.%d-%d%s *)'%(sp[0],sp[1],
       ('; the loop ends with: '+'; '.join(tail)) if nm=='body' else ''))
    out.append('Definition armv6m_S_%s : list arm :=\n  [ %s ].\n'%(nm,'\n  ; '.join(p)))
open('/verif/rocq/theories/ArmCode.v','w').write('\n'.join(out))
