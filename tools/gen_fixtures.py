#!/usr/bin/env python3
"""Generate rocq/theories/Fixtures.v: the recorded gateway responses of /repo/tests/data, run
through the Coq decoders and compared with the decoded data recorded by the real library."""
import json,glob,ast,math,os
out=[]
w=out.append
w('''(** Model validation (tests, not theorems): raw responses recorded in /repo/tests/data/*.json are
    decoded by the model and compared with the decoding recorded there by the real library.
    Generated by tools/gen_fixtures.py. *)
From Verif Require Import Py F64 Struct Utf Utility Const Enum Decode.
Open Scope string_scope. Open Scope list_scope. Open Scope Z_scope.

(** structural equality up to dictionary order and list/tuple (JSON has no tuples) *)
Fixpoint pv_equiv (n : nat) (a b : pv) : bool :=
  match n with
  | O => false
  | S n' =>
    let fix lst l m := match l, m with
      | [], [] => true | x :: l', y :: m' => pv_equiv n' x y && lst l' m' | _, _ => false end in
    match a, b with
    | VNone, VNone => true
    | VInt x, VInt y => x =? y
    | VFloat (S754_finite s m e), VFloat (S754_finite s' m' e') =>
        Bool.eqb s s' && (Z.pos m =? Z.pos m') && (e =? e')
    | VFloat (S754_zero s), VFloat (S754_zero s') => Bool.eqb s s'
    | VStr x, VStr y => pystr_eqb x y
    | (VList l | VTuple l), (VList m | VTuple m) => lst l m
    | VDict d, VDict d' =>
        Nat.eqb (List.length d) (List.length d')
        && forallb (fun kv => match dget (fst kv) d' with
                              | Some v => pv_equiv n' (snd kv) v | None => false end) d
    | _, _ => false
    end
  end.
Definition D (l : list (key * pv)) : pv := VDict l.
Definition S_ (s : string) : pv := VStr (u s).
Definition F (s : bool) (m : positive) (e : Z) : pv := VFloat (S754_finite s m e).
''')
def cs(s): return '"'+s.replace('"','""')+'"'
def fl(f):
    if f==0: return 'VFloat (S754_zero %s)'%('true' if math.copysign(1,f)<0 else 'false')
    m,e=math.frexp(abs(f)); m=int(m*2**53); e-=53
    return f'F {"true" if f<0 else "false"} {m} ({e})'
def key(k):
    return f'KI {k}' if k.lstrip('-').isdigit() else f'KS {cs(k)}'
def val(v):
    if v is None: return 'VNone'
    if isinstance(v,bool): return f'VInt {int(v)}'
    if isinstance(v,int): return f'VInt ({v})'
    if isinstance(v,float): return fl(v)
    if isinstance(v,str):
        if all(ord(c)<128 for c in v): return f'S_ {cs(v)}'
        return 'VStr ['+'; '.join(str(ord(c)) for c in v)+']'
    if isinstance(v,list): return 'VList ['+'; '.join(val(x) for x in v)+']'
    if isinstance(v,dict):
        return 'D ['+'; '.join(f'({key(k)}, {val(x)})' for k,x in v.items())+']'
def raw(x): return ast.literal_eval(x['raw']['repr'])
def by(b): return '['+'; '.join(map(str,b))+']'
def obj(x):
    if isinstance(x,dict) and '__type' in x: return x['repr']
    return x
# recorded by a release that decoded the clock in the host's local zone (8 h off)
OLD=('slpy-0100_pool-52-build-7360-rel_easytouch2-8_32824.json',)
n=0
for f in sorted(glob.glob('/repo/tests/data/*.json')):
    d=json.load(open(f))
    # fixtures recorded by older releases of the library lack newer fields
    if 'major' not in d['decoded_complete']['adapter']['firmware'] or os.path.basename(f) in OLD: continue
    n+=1
    w(f'(** tests/data/{os.path.basename(f)} *)')
    dc=d['decoded_complete']
    fw=dc['adapter']['firmware']
    ws=fw['value'].split()
    w(f'Definition fl{n} (s : pystr) : option spec_float :=')
    vals={ws[1]:fw['major'],ws[3]:fw['minor']}
    body='None'
    for k,v in vals.items():
        body=f'if pystr_eqb s (u {cs(k)}) then (match {fl(float(v))} with VFloat x => Some x | _ => None end) else {body}'
    w('  '+body+'.')
    steps=[]
    steps.append(f'decode_version fl{n} {by(raw(d["version"]))}')
    steps.append(f'decode_pool_config {by(raw(d["config"]))}')
    steps.append(f'decode_pool_status {by(raw(d["status"]))}')
    pumps=[int(k) for k,v in dc['pump'].items() if v.get('data')]
    praw=[p for p in d['pumps'] if p]
    assert len(pumps)==len(praw),(pumps,len(praw))
    for i,p in zip(pumps,praw): steps.append(f'decode_pump_status {by(raw(p))} {i}')
    if d.get('chemistry'): steps.append(f'decode_chemistry {by(raw(d["chemistry"]))}')
    if d.get('scg'): steps.append(f'decode_scg_config {by(raw(d["scg"]))}')
    if d.get('date_time'):
        h=dc['controller']['date_time']['timestamp_host']
        steps.append(f'decode_date_time (match {fl(float(h))} with VFloat x => x | _ => S754_nan end) {by(raw(d["date_time"]))}')
    w(f'Definition run{n} : dict * res unit := ('+' ;;;\n  '.join(steps)+')%dm [].')
    w(f'Definition expect{n} : pv := {val(dc)}.')
    w(f'Example fixture{n} : (match run{n} with (d, Ok tt) => pv_equiv 20 (VDict d) expect{n} | _ => false end) = true.\nProof. vm_compute. reflexivity. Qed.\n')
open('/verif/rocq/theories/Fixtures.v','w').write('\n'.join(out)+'\n')
