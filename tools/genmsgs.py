#!/usr/bin/env python3
"""Reads the message structures (wolfhsm/wh_message_*.h, wh_common.h) and their translation
functions (src/wh_message_*.c) of /repo and writes rocq/theories/MsgTable.v."""
import re,glob,sys,os
R='/repo'
def strip(s):
    s=re.sub(r'/\*.*?\*/',lambda m:re.sub(r'[^\n]','',m.group(0)),s,flags=re.S)
    s=re.sub(r'//[^\n]*','',s)
    return s
W={'uint8_t':1,'int8_t':1,'char':1,'uint16_t':2,'int16_t':2,'uint32_t':4,'int32_t':4,'uint64_t':8,'int64_t':8,'int':4,
   'whKeyId':2,'whNvmId':2,'whNvmFlags':2,'whNvmAccess':2,'whNvmSize':2,'whUserId':2,'whKeyRevision':4,'whMessageCrypto_AlgoType':4}
structs={}   # name -> (file,line,[(ftype,fname,arr)])
def fields(name,body):
    fs=[]
    body=re.sub(r'^\s*#.*$','',body,flags=re.M)
    def inner(m):
        for t,n,a in fields(name,m.group(1)): fs.append((t,m.group(2)+'.'+n,a))
        return ''
    body=re.sub(r'struct\s*\w*\s*\{(.*?)\}\s*(\w+)\s*;',inner,body,flags=re.S)
    for d in body.split(';'):
        d=d.strip()
        if not d: continue
        mm=re.match(r'(?:const\s+|struct\s+)?(\w+)\s*(\**)\s*(\w+)\s*((?:\[[^\]]*\])*)$',d,re.S)
        if not mm: print('field?',name,repr(d),file=sys.stderr); continue
        fs.append((mm.group(1)+mm.group(2),mm.group(3),mm.group(4)))
    return fs
for f in sorted(glob.glob(R+'/wolfhsm/wh_message*.h'))+[R+'/wolfhsm/wh_common.h']:
    s=strip(open(f).read())
    for m in re.finditer(r'typedef\s+struct\s*\w*\s*\{((?:[^{}]|\{[^{}]*\})*)\}\s*(\w+)\s*;',s,re.S):
        structs[m.group(2)]=(os.path.relpath(f,R),s.count('\n',0,m.start())+1,fields(m.group(2),m.group(1)))
    for m in re.finditer(r'typedef\s+(wh\w+)\s+(wh\w+)\s*;',s):
        structs.setdefault(m.group(2),('alias',0,m.group(1)))
def resolve(t):
    while t in structs and structs[t][0]=='alias': t=structs[t][2]
    return t
def flat(t,pre=''):
    out=[]
    for ft,fn,arr in structs[resolve(t)][2]:
        r=resolve(ft)
        if r in structs: out+=flat(r,pre+fn+'.')
        else:
            if ft not in W: print('type?',ft,t,file=sys.stderr)
            out.append((pre+fn,W.get(ft,0),arr))
    return out
funcs=[]; fbyname={}
for f in sorted(glob.glob(R+'/src/wh_message_*.c')):
    s=strip(open(f).read())
    for m in re.finditer(r'^(?:static\s+)?int\s+(wh_Message\w+)\s*\(([^)]*)\)\s*\{(.*?)^\}',s,re.S|re.M):
        a=s.count('\n',0,m.start())+1; b=s.count('\n',0,m.end())+1
        fbyname[m.group(1)]=(m.group(1),m.group(2),m.group(3),os.path.relpath(f,R),a,b)
        funcs.append(fbyname[m.group(1)])
def ops(fn,pre=''):
    n,args,body,f,a,b=fbyname[fn]; o=[]
    for w,fld in re.findall(r'WH_T(\d+)\(\s*magic\s*,\s*dest\w*\s*,\s*src\w*\s*,\s*([^)]+?)\s*\)',body):
        o.append((pre+re.sub(r'\[\w+\]','',fld),'T'+str(int(w)//8)))
    for d,sr,n2 in re.findall(r'memcpy\(\s*([^,]+),\s*([^,]+),\s*([^;]+)\);',body):
        dm=re.match(r'dest\w*->([\w\.]+)$',d.strip()); sm=re.match(r'src\w*->([\w\.]+)$',sr.strip())
        if dm and sm and dm.group(1)==sm.group(1): o.append((pre+dm.group(1),'C'))
        else: print('memcpy?',fn,d,sr,file=sys.stderr)
    for d,sr in re.findall(r'dest\w*->([\w\.]+)\s*=\s*src\w*->([\w\.]+);',body):
        if d==sr: o.append((pre+d,'C'))
        else: print('assign?',fn,d,sr,file=sys.stderr)
    for g,arg in re.findall(r'(wh_Message\w+)\(\s*magic\s*,([^;]*)\)\s*;',body):
        mm=re.match(r'\s*&src->([\w\.]+)\s*,\s*&dest->([\w\.]+)\s*$',arg)
        if mm and mm.group(1)==mm.group(2): o+=ops(g,pre+mm.group(1)+'.')
        else: print('nested?',fn,g,arg,file=sys.stderr)
    return o
SKIPPED={'wh_MessageAuth_FlattenPermissions','wh_MessageAuth_UnflattenPermissions',
  'wh_MessageCustomCb_TranslateRequest','wh_MessageCustomCb_TranslateResponse'}
def entry(fn):
    n,args,body,f,a,b=fbyname[fn]
    t=re.findall(r'(\w+)\s*\*\s*dest\w*',args)[0]
    fl=flat(t); od={}
    for k,v in ops(fn):
        if k in od: raise SystemExit('duplicate op '+fn+' '+k)
        od[k]=v
    for k in od:
        if k not in [x[0] for x in fl]: raise SystemExit('op on unknown field '+fn+' '+k)
    for k in re.findall(r"dest\w*->(\w+)\[sizeof\(dest\w*->\w+\) - 1\] = '.0'",body): od[k]='S'
    r=resolve(t); hf,hl,_=structs[r]
    lines=[]
    for x,w,arr in fl:
        o=od.get(x)
        op='FNone' if o is None else 'FCopy' if o=='C' else 'FStr' if o=='S' else 'FT '+o[1:]
        pad=x.split('.')[-1].upper().startswith('WH_PAD') or x.split('.')[-1] in ('reserved',)
        if pad and o is not None: pad=False
        lines.append('mkF "%s" %d %s %s'%(x,w,'true' if pad else 'false',op if ' ' not in op else '('+op+')'))
    return f,a,b,hf,hl,r,lines
if __name__=='__main__':
    out=['(** Generated by tools/genmsgs.py from wolfhsm/wh_message_*.h, wolfhsm/wh_common.h and',
         '    src/wh_message_*.c: every message structure with what its translation function',
         '    does with each field.  Custom-callback messages are in EndianModel.v, flattened',
         '    permissions in AuthModel.v. *)','From Coq Require Import String.','From Verif Require Import Base EndianModel.','Local Open Scope string_scope.','']
    names=[]
    for n,args,body,f,a,b in funcs:
        if n in SKIPPED: continue
        f,a,b,hf,hl,r,lines=entry(n)
        d='m_'+n.replace('wh_Message','').replace('_Translate','_')
        names.append(d)
        out.append('(** %s %d-%d; %s %d. *)'%(f,a,b,hf,hl))
        out.append('Definition %s : mdef := mkMsg "%s" [\n  %s].'%(d,r,';\n  '.join(lines)))
    out.append('');out.append('Definition msg_table : list mdef := [\n  %s].'%(';\n  '.join(names)))
    open('/verif/rocq/theories/MsgTable.v','w').write('\n'.join(out)+'\n')
    print(len(names))
