from ext import *
files=sorted(glob.glob('/repo/tests/openvpn/test_*.py')+glob.glob('/repo/tests/wireguard/test_*.py')+glob.glob('/repo/tests/vxlan/test_*.py')+glob.glob('/repo/tests/zerotier/test_*.py')+glob.glob('/repo/tests/openwrt/test_*.py'))
n=0; skips=[]; L=[]
for f in files:
    for name,ch in run(f):
        try:
            if ch[0]=="skip": raise Skip(ch[1])
            op,a,b=ch
            if isinstance(b,Sym) and op!="assertIn" and op!="assertNotIn": a,b=b,a
            if op in("assertIn","assertNotIn"): a,b=b,a
            if not isinstance(a,Sym): raise Skip("nosym")
            o=a.obj
            if a.kind=="auto":
                args,kw=a.arg
                if o==("OpenVpn","auto_client"):
                    for nm,x in zip(["host","server","ca_path","ca_contents","cert_path","cert_contents","key_path","key_contents"],args): kw[nm]=x
                    e='openvpn_auto_client %s %s %s'%(cv(kw["host"]),cd(kw["server"])," ".join(cv(kw.get(k)) for k in ["ca_path","ca_contents","cert_path","cert_contents","key_path","key_contents"]))
                elif args: raise Skip("args")
                else:
                    fn={("OpenWrt","wireguard_auto_client"):"owrt_wireguard_auto_client",("OpenWrt","vxlan_wireguard_auto_client"):"owrt_vxlan_auto_client",("OpenWrt","zerotier_auto_client"):"owrt_zerotier_auto_client",("Wireguard","auto_client"):"wireguard_auto_client",("VxlanWireguard","auto_client"):"vxlan_auto_client",("ZeroTier","auto_client"):"zt_auto"}[o]
                    e='%s %s'%(fn,cd(kw))
                L.append('(%s, chkA (%s) %s)'%(cs(name),e,cd(b)))
                n+=1; continue
            def autoexpr(sym):
                args,kw=sym.arg; kw=dict(kw)
                if sym.obj!=("OpenVpn","auto_client"): raise Skip("auto2")
                for nm,x in zip(["host","server","ca_path","ca_contents","cert_path","cert_contents","key_path","key_contents"],args): kw[nm]=x
                return 'openvpn_auto_client %s %s %s'%(cv(kw["host"]),cd(kw["server"])," ".join(cv(kw.get(k)) for k in ["ca_path","ca_contents","cert_path","cert_contents","key_path","key_contents"]))
            if o.cls not in ("OpenVpn","Wireguard","VxlanWireguard","ZeroTier"): raise Skip("cls "+o.cls)
            if o.extra: raise Skip("extra")
            dsa={"OpenVpn":"ovpn","ZeroTier":"zt"}.get(o.cls,"wg"); nat="NatZ" if o.cls=="ZeroTier" else "Nat"
            if a.kind=="render":
                if isinstance(o.config,Sym): src="(CfgR (%s))"%autoexpr(o.config)
                elif o.config is not None: src="(Cfg %s)"%cd(o.config)
                elif isinstance(o.native,str): src="(%s %s)"%(nat,cs(o.native))
                else: raise Skip("src")
                fl="true" if a.arg else "false"
                fn={"assertEqual":"chkR","assertIn":"chkIn","assertNotIn":"chkNotIn"}[op]
                L.append('(%s, %s %s %s %s %s)'%(cs(name),fn,dsa,fl,src,cs(b)))
            elif a.kind=="config" and isinstance(b,dict):
                if isinstance(o.native,str): src="(%s %s)"%(nat,cs(o.native))
                else: raise Skip("src")
                L.append('(%s, chkC %s %s %s)'%(cs(name),dsa,src,cd(b)))
            else: raise Skip("kind "+a.kind)
            n+=1
        except (Skip,AttributeError,KeyError) as e: skips.append((name,str(e)))
hdr='''From Verif Require Import PyBase Merge Files Uci Backend OpenVpnConv VpnText AutoClient Json ZtBackend.
Definition oid : oracle := fun _ i => i.
Definition ovpn := openvpn_backend (fun _ => Ok tt).
Definition zt := zerotier_backend (fun _ => Ok tt).
Definition wg := wireguard_backend (fun _ => Ok tt).
Definition zt_auto kw := do r <- zerotier_auto_client kw; Ok (fst r).
Inductive src := Cfg (d : dict) | Nat (s : string) | NatZ (s : string) | CfgR (r : res dict).
Inductive outc := Good | Bad (r : res val) (e : val).
Definition st (B : backend) (s : src) : state * res unit := match s with Cfg d => (fresh d, Ok tt) | CfgR r => match r with Ok d => (fresh d, Ok tt) | Err e => (fresh [], Err e) end | NatZ s => parse oid B (parse_zerotier s) (fresh []) | Nat s => parse oid B (Ok (parse_openvpn s)) (fresh []) end.
Definition rnd dsa fl s : res string := let (x, r) := st dsa s in do _ <- r; snd (render oid dsa fl x).
Definition chkR dsa fl s e := match rnd dsa fl s with Ok t => if String.eqb t e then Good else Bad (Ok (VStr t)) (VStr e) | Err x => Bad (Err x) (VStr e) end.
Definition chkIn dsa fl s e := match rnd dsa fl s with Ok t => if contains e t then Good else Bad (Ok (VStr t)) (VStr e) | Err x => Bad (Err x) (VStr e) end.
Definition chkNotIn dsa fl s e := match rnd dsa fl s with Ok t => if contains e t then Bad (Ok (VStr t)) (VStr e) else Good | Err x => Bad (Err x) (VStr e) end.
Definition chkC dsa s e := let (x, r) := st dsa s in match r with Ok _ => if py_eq (VDict (st_config x)) (VDict e) then Good else Bad (Ok (VDict (st_config x))) (VDict e) | Err y => Bad (Err y) (VDict e) end.
Definition chkA (r : res dict) e := match r with Ok c => if py_eq (VDict c) (VDict e) then Good else Bad (Ok (VDict c)) (VDict e) | Err y => Bad (Err y) (VDict e) end.
Definition nm (x : string * outc) := match snd x with Good => [] | Bad r e => [(fst x, r, e)] end.
'''
K=40
for i in range(0,len(L),K):
    open('T%d.v'%(i//K),'w').write(hdr+'Definition cases := [\n'+";\n".join(L[i:i+K])+'\n].\nDefinition bad := Eval vm_compute in flat_map nm cases.\nCompute length bad.\nPrint bad.\n')
print(n,len(skips))
import collections
print(collections.Counter(s for _,s in skips).most_common(25))
open('skips.txt','w').write("\n".join(map(str,skips)))
