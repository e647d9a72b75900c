"""Compares the model of the Python runtime with the Python that runs this script.

Random cases (argument: a seed) for base64, UTF-8, splitlines, split, int and struct
conversions, repr, JSON, list and mapping operations, io.BytesIO and the C3 order of classes with
the bases that the sources in /repo name (read with ast, nothing of /repo is run).
It prints a Coq file; each Eval in it lists the cases that differ and must answer [].

    python3 runtime_check.py 1 > /tmp/D.v
    coqc -Q /verif/rocq/theories Verif /tmp/D.v

A test of trusted-base item 2 in DESIGN.md, not part of any proof.
"""
import random,base64,struct,json,io,sys,binascii
random.seed(int(sys.argv[1]))
out=[]
def B(b): return '(map bZ [%s])'%'; '.join(map(str,b))
def S(s): return '([%s]%%N : pystr)'%'; '.join(str(ord(c)) for c in s)
def EXN(e):
    if isinstance(e,UnicodeDecodeError): return 'UnicodeDecodeError '+B(e.object)
    if isinstance(e,UnicodeEncodeError): return 'UnicodeEncodeError'
    if isinstance(e,binascii.Error): return 'BinasciiError'
    if isinstance(e,struct.error): return 'StructError'
    if isinstance(e,OverflowError): return 'OverflowError'
    if isinstance(e,ValueError): return 'ValueError'
    if isinstance(e,TypeError): return 'TypeError'
    if isinstance(e,SystemError): return 'OtherError'
    raise e
def R(f,enc):
    try: v=f()
    except Exception as e: return '(Err (%s))'%EXN(e)
    return '(Ok %s)'%enc(v)
def SL(l): return '[%s]'%'; '.join(S(x) for x in l)
def V(v):
    if isinstance(v,bool): return '(VInt %d)'%v
    if isinstance(v,int): return '(VInt (%d))'%v
    if isinstance(v,bytes): return '(VBytes %s)'%B(v)
    if isinstance(v,str): return '(VStr %s)'%S(v)
tests={}
def t(name,typ,lhs,rhs): tests.setdefault((name,typ),[]).append((lhs,rhs))
alpha='ABCDwxyz0189+/'
for _ in range(250):
    n=random.randrange(0,13)
    s=''.join(random.choice(random.choice([alpha,alpha,'=','=-_ \n!\x00éŁ'])) for _ in range(n))
    t('b64decode','res bytes',S(s),R(lambda: base64.b64decode(s),B))
for _ in range(60):
    b=bytes(random.randrange(256) for _ in range(random.randrange(0,12)))
    t('b64encode','pystr',B(b),S(base64.b64encode(b).decode()))
pool=[0,9,10,0x41,0x7f,0x80,0xff,0x7ff,0x800,0xd7ff,0xd800,0xdfff,0xe000,0xffff,0x10000,0x10ffff]
for _ in range(80):
    s=''.join(chr(random.choice(pool)) for _ in range(random.randrange(0,5)))
    t('utf8_encode','res bytes',S(s),R(lambda: s.encode(),B))
bp=[0,0x41,0x7f,0x80,0x8f,0x90,0x9f,0xa0,0xbf,0xc0,0xc1,0xc2,0xdf,0xe0,0xe1,0xec,0xed,0xee,0xef,0xf0,0xf1,0xf3,0xf4,0xf5,0xff]
for _ in range(500):
    b=bytes(random.choice(bp) for _ in range(random.randrange(0,6)))
    t('utf8_decode','res pystr',B(b),R(lambda: b.decode(),S))
for _ in range(200):
    s=''.join(random.choice(['valid','é','€','\U0001f600','퟿']) for _ in range(3)); b=bytearray(s.encode())
    if b and random.random()<.7: b[random.randrange(len(b))]=random.choice(bp)
    b=bytes(b)
    t('utf8_decode','res pystr',B(b),R(lambda: b.decode(),S))
lp='a b\n\r\x0b\x0c\x1c\x1d\x1e\x1f\x85\xa0  ‧‪\t\x00'
for _ in range(200):
    s=''.join(random.choice(lp) for _ in range(random.randrange(0,9)))
    t('splitlines','list pystr',S(s),SL(s.splitlines()))
for _ in range(100):
    s=''.join(random.choice('a  b\t\xa0') for _ in range(random.randrange(0,9)))
    t('split_max (cp " ") 2','list pystr',S(s),SL(s.split(' ',2)))
for _ in range(100):
    s=''.join(random.choice('ab\r\r\n\n\x85 ') for _ in range(random.randrange(0,9)))
    t('universal_newlines','pystr',S(s),S(io.TextIOWrapper(io.BytesIO(s.encode()),encoding='utf8').read()))
for _ in range(60):
    z=random.choice([0,1,-1,127,128,-128,-129,255,256,-256,random.randrange(-10**6,10**6),random.randrange(-2**70,2**70)])
    n=random.randrange(-1,10); sg=random.random()<.5
    t('(fun a => int_to_bytes (fst (fst a)) (snd (fst a)) (snd a))','res bytes','(%d,%d,%s)'%(z,n,str(sg).lower()),R(lambda: z.to_bytes(length=n,byteorder='big',signed=sg),B))
    t('bit_length','Z','(%d)'%z,'(%d)'%z.bit_length())
    t('int_repr','pystr','(%d)'%z,S(repr(z)))
    b=bytes(random.choice([0,1,127,128,255]) for _ in range(random.randrange(0,6)))
    t('(fun a => int_from_bytes (fst a) (snd a))','Z','(%s,%s)'%(B(b),str(sg).lower()),'(%d)'%int.from_bytes(b,'big',signed=sg))
for _ in range(150):
    b=bytes(random.choice([0,9,10,13,31,32,34,39,39,34,92,65,126,127,128,255]) for _ in range(random.randrange(0,6)))
    t('bytes_repr','pystr',B(b),S(str(b)))
for _ in range(150):
    s=''.join(chr(random.choice([0,8,9,10,12,13,31,32,34,39,47,92,126,127,128,0xd800,0xdc00,0xffff,0x10000,0x10ffff,0x2028])) for _ in range(random.randrange(0,5)))
    t('encode_str','pystr',S(s),S(json.dumps(s)))
def J(o):
    if o is None: return 'JNull'
    if isinstance(o,int): return '(JInt (%d))'%o
    if isinstance(o,str): return '(JStr %s)'%S(o)
    if isinstance(o,list): return '(JArr [%s])'%'; '.join(map(J,o))
    return '(JObj [%s])'%'; '.join('(%s, %s)'%(S(k),J(v)) for k,v in o.items())
def rj(d):
    r=random.random()
    if d==0 or r<.4: return random.choice([None,5,-3,'a"','\n'])
    if r<.7: return [rj(d-1) for _ in range(random.randrange(3))]
    return {random.choice('abc')+str(i):rj(d-1) for i in range(random.randrange(3))}
for _ in range(60):
    o=rj(3); t('encode 0','pystr',J(o),S(json.dumps(o,indent=4)))
# struct
codes='xcsbBhHiIlLqQ?p'
def fmt():
    r=random.random()
    p=random.choice(['>','<','!','=','>','>'] if r<.5 else ['','@'])
    cs=codes[:-2]+'pnNP' if p in('','@') else codes+'nNP' if random.random()<.05 else codes
    s=p
    for _ in range(random.choice([0,1,1,1,2,3])):
        s+=random.choice(['','','','',' ','\t'])
        s+=random.choice(['','','','0','1','2','3','03'])
        if random.random()<.05: s+=' '
        s+=random.choice(cs)
    if random.random()<.08: s+=random.choice(['3','z','>','-','é'])
    return s
def calc(f): return struct.calcsize(f)
for _ in range(600):
    f=fmt()
    t('struct_calcsize','res Z',S(f),R(lambda: struct.calcsize(f),lambda z:'(%d)'%z))
    try: n=struct.calcsize(f)
    except Exception: n=3
    m=n if random.random()<.85 else random.randrange(0,8)
    b=bytes(random.choice([0,1,127,128,255,65]) for _ in range(m))
    t('(fun a => struct_unpack (fst a) (snd a))','res (list pyval)','(%s,%s)'%(S(f),B(b)),R(lambda: list(struct.unpack(f,b)),lambda l:'[%s]'%'; '.join(map(V,l))))
    v=random.choice([0,1,-1,127,128,-128,-129,255,256,65535,65536,-32768,-32769,32767,32768,2**31-1,2**31,-2**31,-2**31-1,2**32-1,2**32,2**63-1,2**63,-2**63,-2**63-1,2**64-1,2**64,b'',b'a',b'ab',b'abcd','a',''])
    vs=[v] if random.random()<.8 else [v,random.choice([1,b'x'])][:random.randrange(0,3)]
    t('(fun a => struct_pack (fst a) (snd a))','res bytes','(%s,[%s])'%(S(f),'; '.join(map(V,vs))),R(lambda: struct.pack(f,*vs),B))
for _ in range(80):
    a=sorted_in=[''.join(random.choice('abŁ\U0001f600') for _ in range(random.randrange(0,4))) for _ in range(random.randrange(0,6))]
    t('sorted_strs','list pystr',SL(a),SL(sorted(a)))
    p=''.join(random.choice('ab') for _ in range(random.randrange(0,3))); s=''.join(random.choice('ab') for _ in range(random.randrange(0,4)))
    t('(fun a => starts_with (fst a) (snd a))','bool','(%s,%s)'%(S(p),S(s)),str(s.startswith(p)).lower())

# collections.UserList (edits and derived lists), over a list of ints
import collections
def L(l): return '([%s] : list Z)'%'; '.join('(%d)'%x for x in l)
def SLc(s): return '(mkslice %s %s %s)'%tuple('None' if x is None else '(Some (%d))'%x for x in (s.start,s.stop,s.step))
def oi(): return random.choice([None,None]+list(range(-6,7)))
def sl(): return slice(oi(),oi(),random.choice([None,None,1,1,-1,2,-2,3,-3,0]))
def ri(): return random.randrange(-6,7)
def ex2(e): return {IndexError:'IndexError',ValueError:'ValueError'}[type(e)]
for _ in range(900):
    l=[random.randrange(4) for _ in range(random.randrange(0,5))]
    xs=[random.randrange(4,7) for _ in range(random.randrange(0,4))]
    u=collections.UserList(l); x=random.randrange(4); i=ri(); s=sl()
    k=random.randrange(17)
    def inplace(f):
        try: f()
        except Exception as e: return '(Err %s)'%ex2(e)
        return '(Ok %s)'%L(u.data)
    def derived(f):
        try: r=f()
        except Exception as e: return '(Err %s)'%ex2(e)
        return '(Ok %s)'%L(r.data)
    def setitem(): u[i]=x
    def delitem(): del u[i]
    def setslice(): u[s]=xs
    def delslice(): del u[s]
    def imul():
        v=u; v*=i
    E={0:('Append %d'%x,lambda:u.append(x)),1:('Extend %s'%L(xs),lambda:u.extend(xs)),2:('Insert (%d) %d'%(i,x),lambda:u.insert(i,x)),
       3:('Pop (%d)'%i,lambda:u.pop(i)),4:('Remove %d'%x,lambda:u.remove(x)),5:('Clear',lambda:u.clear()),6:('Reverse',lambda:u.reverse()),
       7:('IMul (%d)'%i,imul),8:('SetItem (%d) %d'%(i,x),setitem),9:('DelItem (%d)'%i,delitem),10:('SetSlice %s %s'%(SLc(s),L(xs)),setslice),11:('DelSlice %s'%SLc(s),delslice)}
    D={12:('GetSlice %s'%SLc(s),lambda:u[s]),13:('Copy',lambda:u.copy()),14:('Add %s'%L(xs),lambda:u+xs),15:('RAdd %s'%L(xs),lambda:xs+u),16:('Mul (%d)'%i,lambda:u*i)}
    if k in E: t('(fun a => edit_items Z.eqb (fst a) (snd a))','res (list Z)','((%s : edit_of Z), %s)'%(E[k][0],L(l)),inplace(E[k][1]))
    else: t('(fun a => derive_items (fst a) (snd a))','res (list Z)','((%s : derive_of Z), %s)'%(D[k][0],L(l)),derived(D[k][1]))
    def idx(): return l[i]
    try: r='(Ok %d)'%idx()
    except Exception as e: r='(Err %s)'%ex2(e)
    t('(fun a => py_index (fst a) (snd a))','res Z','(%s,(%d))'%(L(l),i),r)
# io.BytesIO
for _ in range(200):
    b0=bytes(random.randrange(1,9) for _ in range(random.randrange(0,6))); p=random.randrange(0,9)
    s=io.BytesIO(b0); s.seek(p); w=bytes(random.randrange(9,20) for _ in range(random.randrange(0,4)))
    s.write(w); t('(fun a => let s := bio_write (snd a) (fst a) in (sbuf s, Z.of_nat (spos s)))','bz','(mkstream %s %d, %s)'%(B(b0),p,B(w)),'(%s,%d)'%(B(s.getvalue()),s.tell()))
    s=io.BytesIO(b0); s.seek(p); n=random.choice([-3,-1,0,1,2,3,9,2**63-1,2**63,-2**63,-2**63-1]); q=(None,)
    try: r='(Ok %s)'%B(s.read(n))
    except OverflowError: r='(Err OverflowError)'
    t('(fun a => let (s, r) := bio_read (snd a) (fst a) in (r, Z.of_nat (spos s)))','rbz','(mkstream %s %d, (%d))'%(B(b0),p,n),'(%s,%d)'%(r,s.tell()))
big=[2**31-1,2**31,-2**31,-2**31-1,2**63-1,2**63-4,2**63,-2**63,-2**63-1]
for _ in range(400):
    b0=bytes(random.randrange(1,9) for _ in range(random.randrange(0,6))); p=random.randrange(0,9)
    s=io.BytesIO(b0); s.seek(p); o=random.choice(list(range(-9,10))+big); w=random.choice([0,1,2,0,1,2,0,1,2,-1,3]+big)
    r=R(lambda: s.seek(o,w),lambda z:'(%d)'%z)
    t('(fun a => let s := fst (fst a) in let (s, r) := bio_seek (snd (fst a)) (snd a) s in (r, (sbuf s, match r with Ok z => if 99 <? z then z else Z.of_nat (spos s) | _ => Z.of_nat (spos s) end)))','rzbz','((mkstream %s %d, (%d)), (%d))'%(B(b0),p,o,w),'(%s,(%s,%d))'%(r,B(s.getvalue()),s.tell()))
    s=io.BytesIO(b0); s.seek(p); n=random.choice([None]+list(range(-2,10))+big)
    r=R(lambda: s.truncate(n),lambda z:'(%d)'%z)
    t('(fun a => let (s, r) := bio_truncate (snd a) (fst a) in (r, (sbuf s, Z.of_nat (spos s))))','rzbz','(mkstream %s %d, %s)'%(B(b0),p,'None' if n is None else '(Some (%d))'%n),'(%s,(%s,%d))'%(r,B(s.getvalue()),s.tell()))
# dict and collections.UserDict with a constructor that needs its argument
class PD(collections.UserDict):
    def __init__(self,params): super().__init__(params)
def I(l): return '([%s] : list (pystr * pyval))'%'; '.join('(%s, %s)'%(S(k),V(v)) for k,v in l)
for _ in range(600):
    ks='abc'; items=[(k,random.randrange(9)) for k in random.sample(ks,random.randrange(0,4))]
    plain=random.random()<.4; d=dict(items) if plain else PD(dict(items))
    k=random.choice(ks); v=random.randrange(9); l=[(random.choice(ks+'d'),random.randrange(9)) for _ in range(random.randrange(0,4))]; df=random.choice([None,7])
    def ior():
        global d
        e=d; e|=random.choice([dict(l),l]) if len(dict(l))==len(l) else l
    def dele(): del d[k]
    def sete(): d[k]=v
    none=lambda r:'MNone'; val=lambda r:'(MValue %s)'%V(r)
    o=random.choice([('MSet %s %s'%(S(k),V(v)),sete,none),('MDel %s'%S(k),dele,none),
      ('MPop %s %s'%(S(k),'None' if df is None else '(Some %s)'%V(df)),(lambda: d.pop(k)) if df is None else (lambda: d.pop(k,df)),val),
      ('MPopitem',lambda: d.popitem(),lambda r:'(MItem %s %s)'%(S(r[0]),V(r[1]))),('MClear',lambda: d.clear(),none),
      ('MUpdate %s'%I(l),lambda: d.update(l),none),('MIor %s'%I(l),ior,none),('MSetdefault %s %s'%(S(k),V(v)),lambda: d.setdefault(k,v),val)])
    try: r='(Ok (%s, %s))'%(o[2](o[1]()),I(d.items()))
    except KeyError as e: assert list(d.items())==items; r='(Err (KeyError %s))'%(V(e.args[0]) if e.args else '(VTuple [])')
    t('(fun a => medit_run (fst (fst a)) (snd (fst a)) (snd a))','rm','((%s, %s), %s)'%('PlainDict' if plain else 'Params',o[0],I(items)),r)
for _ in range(100):
    a=[(k,random.randrange(9)) for k in random.sample(ks,random.randrange(0,4))]; b=[(k,random.randrange(9)) for k in random.sample(ks,random.randrange(0,4))]
    m=random.choice([lambda: PD(dict(a))|dict(b),lambda: PD(dict(a))|PD(dict(b)),lambda: dict(a)|PD(dict(b))])()
    assert type(m) is PD; t('(fun a => dmerge (fst a) (snd a))','items','(%s, %s)'%(I(a),I(b)),I(m.items()))
    t('(fun a => params_eq (fst a) (MDict (snd a)))','bool','(%s, %s)'%(I(a),I(b)),str(PD(dict(a))==dict(b)).lower())
try: PD.fromkeys('ab'); assert 0
except TypeError: pass
# method resolution order and __subclasses__ of classes with the bases named in the sources
import ast,abc
ns={'UserDict':collections.UserDict,'ABC':abc.ABC}; order=[]
short={'Cert_RSA_PublicKeyParams':'CertRSA','Cert_Ed25519_PublicKeyParams':'CertEd','Cert_DSS_PublicKeyParams':'CertDSS','Cert_ECDSA_NISTP256_PublicKeyParams':'CertE256','Cert_ECDSA_NISTP384_PublicKeyParams':'CertE384','Cert_ECDSA_NISTP521_PublicKeyParams':'CertE521','Cert_SecurityKey_Ed25519_PublicKeyParams':'CertSKEd','Cert_SecurityKey_ECDSA_NISTP256_PublicKeyParams':'CertSKE256','CertPublicKeyParams':'CertPub','SecurityKeyPublicKeyParams':'SKPub','SecurityKeyPrivateKeyParams':'SKPriv','SecurityKey_ECDSA_NISTP256_PublicKeyParams':'SKE256Pub','SecurityKey_ECDSA_NISTP256_PrivateKeyParams':'SKE256Priv','SecurityKey_Ed25519_PublicKeyParams':'SKEdPub','SecurityKey_Ed25519_PrivateKeyParams':'SKEdPriv','RSAPublicKeyParams':'RSAPub','RSAPrivateKeyParams':'RSAPriv','DSSPublicKeyParams':'DSSPub','DSSPrivateKeyParams':'DSSPriv','ECDSAPublicKeyParams':'ECDSAPub','ECDSAPrivateKeyParams':'ECDSAPriv','Ed25519PublicKeyParams':'EdPub','Ed25519PrivateKeyParams':'EdPriv'}
for n in '256','384','521':
    for k in 'Public','Private': short['ECDSA_NISTP%s_%sKeyParams'%(n,k)]='E%s%s'%(n,'Pub' if k=='Public' else 'Priv')
R0='/repo/openssh_key/'
def bname(b):
    if isinstance(b,ast.Subscript): b=b.value
    return b.attr if isinstance(b,ast.Attribute) else b.id
for f in ['pascal_style_byte_stream','key_params/common','key_params/dss','key_params/ecdsa','key_params/ed25519','key_params/rsa','key_params/sk','key_params/cert']:
    for node in ast.parse(open(R0+f+'.py').read()).body:
        if isinstance(node,ast.ClassDef):
            bs=[bname(b) for b in node.bases]
            if node.name=='PascalStyleDict' or all(x in ns for x in bs) and bs and node.name in list(short)+['PublicKeyParams','PrivateKeyParams']:
                ns[node.name]=type(abc.ABC)(node.name,tuple(ns.get(x,collections.UserDict) for x in bs),{}); order.append(node.name)
C=lambda n: short.get(n,n)
assert len(order)==len(short)+3,(len(order),len(short))
for n in order:
    t('mro','list cls',C(n),'[%s]'%'; '.join(C(k.__name__) for k in ns[n].__mro__ if k.__name__ in ns))
    t('subclasses','list cls',C(n),'[%s]'%'; '.join(C(k.__name__) for k in ns[n].__subclasses__()))
print('''From Verif Require Import PyBase IntBytes Utf8 StructFmt Stream Text Classes Key Crypto PrivateKeyList UserList Json Convert Seek Mapping.
Open Scope Z_scope.
Definition beq {A} (d : forall x y : A, {x = y} + {x <> y}) (x y : A) : bool := if d x y then true else false.
Lemma N_dec (x y : N) : {x = y} + {x <> y}. Proof. decide equality; decide equality. Defined.
Fixpoint check {A B} (f : A -> B) (eqb : B -> B -> bool) (i : nat) (l : list (A * B)) : list (nat * B) :=
  match l with [] => [] | (a, b) :: l' => if eqb (f a) b then check f eqb (S i) l' else (i, f a) :: check f eqb (S i) l' end.
Definition exn_eqb (a b : exn) : bool := match a, b with
 | KeyError x, KeyError y => val_eqb x y
 | UnicodeDecodeError x, UnicodeDecodeError y => bytes_eqb x y
 | UnicodeEncodeError, UnicodeEncodeError | BinasciiError, BinasciiError | StructError, StructError | OverflowError, OverflowError | ValueError, ValueError | IndexError, IndexError | TypeError, TypeError | OtherError, OtherError => true | _, _ => false end.
Definition res_eqb {A} (e : A -> A -> bool) (a b : res A) : bool := match a, b with Ok x, Ok y => e x y | Err x, Err y => exn_eqb x y | _, _ => false end.
Fixpoint list_eqb {A} (e : A -> A -> bool) (a b : list A) : bool := match a, b with [] , [] => true | x :: a', y :: b' => e x y && list_eqb e a' b' | _, _ => false end.
Definition items_eqb := list_eqb (fun a b : pystr * pyval => str_eqb (fst a) (fst b) && val_eqb (snd a) (snd b)).
Definition man_eqb (a b : manswer) : bool := match a, b with MNone, MNone => true | MValue x, MValue y => val_eqb x y | MItem k x, MItem l y => str_eqb k l && val_eqb x y | _, _ => false end.
''')
eq={'items':'items_eqb','rm':'(res_eqb (fun a b => man_eqb (fst a) (fst b) && items_eqb (snd a) (snd b)))','rzbz':'(fun a b => res_eqb Z.eqb (fst a) (fst b) && bytes_eqb (fst (snd a)) (fst (snd b)) && Z.eqb (snd (snd a)) (snd (snd b)))','res (list Z)':'(res_eqb (list_eqb Z.eqb))','bz':'(fun a b => bytes_eqb (fst a) (fst b) && Z.eqb (snd a) (snd b))','rbz':'(fun a b => res_eqb bytes_eqb (fst a) (fst b) && Z.eqb (snd a) (snd b))','list cls':'(list_eqb cls_eqb)','res bytes':'(res_eqb bytes_eqb)','res pystr':'(res_eqb str_eqb)','pystr':'str_eqb','list pystr':'(list_eqb str_eqb)','Z':'Z.eqb','bool':'Bool.eqb','res Z':'(res_eqb Z.eqb)','res (list pyval)':'(res_eqb (list_eqb val_eqb))'}
for i,((n,ty),l) in enumerate(tests.items()):
    print('(* %s: %d *)'%(n,len(l)))
    print('Definition t%d := [%s].'%(i,';\n'.join('(%s, %s)'%x for x in l)))
    print('Eval '+('lazy' if ty=='rzbz' else 'vm_compute')+' in check (%s) %s 0 t%d.'%(n,eq[ty],i))
