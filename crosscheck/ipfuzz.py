import random, ipaddress, subprocess
random.seed(7)
def cq(s): return '"'+s.replace('"','""')+'"'
cases=[]
def rnd6():
    n=random.choice([random.getrandbits(128), random.getrandbits(16), random.getrandbits(64)<<64, 0, 1])
    s=str(ipaddress.IPv6Address(n))
    if random.random()<.3: s=ipaddress.IPv6Address(n).exploded
    if random.random()<.3:
        l=list(s); i=random.randrange(len(l)); op=random.random()
        if op<.4: l[i]=random.choice("0123456789abcdefF:.g")
        elif op<.7: del l[i]
        else: l.insert(i,random.choice(":0.f"))
        s=''.join(l)
    return s
def rnd4():
    s='.'.join(str(random.choice([0,1,10,192,255,256,random.randrange(300)])) for _ in range(random.choice([4,4,4,4,3,5])))
    if random.random()<.2:
        l=list(s); i=random.randrange(len(l)); l.insert(i,random.choice("0. :a")); s=''.join(l)
    return s
for _ in range(900):
    a=random.choice([rnd4,rnd6])()
    if random.random()<.15: a=rnd6()[:-6]+":"+rnd4()
    p=random.choice(["","/"+str(random.randrange(0,140)),"/24","/"+str(ipaddress.ip_network("0.0.0.0/%d"%random.randrange(33)).netmask),"/"+str(ipaddress.ip_network("0.0.0.0/%d"%random.randrange(33)).hostmask),"/","/a","/024","//8", "/255.0.255.0"])
    cases.append(a+p)
out=[]
for c in cases:
    try:
        i=ipaddress.ip_interface(c); e='Some (%s, %s, %s, %s)'%(cq(str(i)),cq(str(i.ip)),cq(str(i.netmask)),cq(str(i.network)))
    except ValueError: e='None'
    try: ipaddress.ip_network(c); n='true'
    except ValueError: n='false'
    out.append('(%s, %s, %s)'%(cq(c),e,n))
open('IpFuzz.v','w').write('''From Verif Require Import PyBase Ip.
From Coq Require Import NArith.
Definition one (s:string) := match ip_interface s with Some i => Some (if_str i, if_ip i, if_netmask i, if_network i) | None => None end.
Definition net (s:string) := match ip_network s with Some _ => true | None => false end.
Definition eqo (a b : option (string*string*string*string)) := match a,b with None,None => true | Some (a,b,c,d), Some (e,f,g,h) => String.eqb a e && String.eqb b f && String.eqb c g && String.eqb d h | _,_ => false end.
Definition cases : list (string * option (string*string*string*string) * bool) := [%s].
Eval vm_compute in map (fun '(s,e,n) => (s, one s, net s)) (filter (fun '(s,e,n) => negb (eqo (one s) e && Bool.eqb (net s) n)) cases).
'''%(';\n'.join(out)))
