import sys; sys.path.insert(0,'.')
from ext import *
files=sorted(glob.glob('/repo/tests/openwrt/test_*.py'))
n=0; skips=[]; L=[]
for f in files:
    for name,ch in run(f):
        try:
            if ch[0]=="skip": raise Skip(ch[1])
            op,a,b=ch
            if isinstance(b,Sym) and op!="assertIn" and op!="assertNotIn": a,b=b,a
            if op in("assertIn","assertNotIn"): a,b=b,a
            if not isinstance(a,Sym): raise Skip("nosym")
            o=a.obj
            if o.cls!="OpenWrt": raise Skip("cls")
            if o.extra: raise Skip("extra")
            dsa="true" if o.dsa else "false"
            if a.kind=="render":
                if o.config is not None: src="(Cfg %s)"%cd(o.config)
                elif isinstance(o.native,str): src="(Nat %s)"%cs(o.native)
                else: raise Skip("src")
                fl="true" if a.arg else "false"
                fn={"assertEqual":"chkR","assertIn":"chkIn","assertNotIn":"chkNotIn"}[op]
                L.append('(%s, %s %s %s %s %s)'%(cs(name),fn,dsa,fl,src,cs(b)))
            elif a.kind=="config" and isinstance(b,dict):
                if isinstance(o.native,str): src="(Nat %s)"%cs(o.native)
                elif isinstance(o.native,Sym) and o.native.kind=="render": src="(Nat2 %s)"%cd(o.native.obj.config)
                else: raise Skip("src")
                L.append('(%s, chkC %s %s %s)'%(cs(name),dsa,src,cd(b)))
            else: raise Skip("kind "+a.kind)
            n+=1
        except Skip as e: skips.append((name,str(e)))
hdr='''From Verif Require Import PyBase Merge Files Uci Backend OpenWrt.
Definition oid : oracle := fun _ i => i.
Definition B dsa := openwrt oid (fun _ => Ok tt) dsa false false.
Inductive src := Cfg (d : dict) | Nat (s : string).
Inductive outc := Good | Bad (r : res val) (e : val).
Definition st dsa (s : src) : state * res unit := match s with Cfg d => (fresh d, Ok tt) | Nat s => owrt_parse oid (B dsa) s (fresh []) end.
Definition rnd dsa fl s : res string := let (x, r) := st dsa s in do _ <- r; snd (render oid (B dsa) fl x).
Definition chkR dsa fl s e := match rnd dsa fl s with Ok t => if String.eqb t e then Good else Bad (Ok (VStr t)) (VStr e) | Err x => Bad (Err x) (VStr e) end.
Definition chkIn dsa fl s e := match rnd dsa fl s with Ok t => if contains e t then Good else Bad (Ok (VStr t)) (VStr e) | Err x => Bad (Err x) (VStr e) end.
Definition chkNotIn dsa fl s e := match rnd dsa fl s with Ok t => if contains e t then Bad (Ok (VStr t)) (VStr e) else Good | Err x => Bad (Err x) (VStr e) end.
Definition chkC dsa s e := let (x, r) := st dsa s in match r with Ok _ => if py_eq (VDict (st_config x)) (VDict e) then Good else Bad (Ok (VDict (st_config x))) (VDict e) | Err y => Bad (Err y) (VDict e) end.
Definition nm (x : string * outc) := match snd x with Good => [] | Bad r e => [(fst x, r, e)] end.
'''
K=40
for i in range(0,len(L),K):
    open('T%d.v'%(i//K),'w').write(hdr+'Definition cases := [\n'+";\n".join(L[i:i+K])+'\n].\nDefinition bad := Eval vm_compute in flat_map nm cases.\nCompute length bad.\nPrint bad.\n')
print(n,len(skips))
import collections
print(collections.Counter(s for _,s in skips).most_common(25))
open('skips.txt','w').write("\n".join(map(str,skips)))
