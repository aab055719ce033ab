#!/usr/bin/env python3
"""Generate rocq/theories/Const.v from the constant classes of /repo (read as text)."""
import ast, sys
R='/repo/screenlogicpy/'
out=[]
def w(s): out.append(s)
w('''(** Constants of /repo/screenlogicpy/const and device_const.
    Generated by tools/gen_const.py from the repository text; every block cites its lines. *)
From Verif Require Import Py.
Open Scope string_scope.
Open Scope list_scope.
Open Scope Z_scope.
''')
def classes(f):
    t=ast.parse(open(R+f).read())
    return {n.name:n for n in t.body if isinstance(n,ast.ClassDef)}
def assigns(c):
    for n in c.body:
        if isinstance(n,ast.Assign) and len(n.targets)==1 and isinstance(n.targets[0],ast.Name) and isinstance(n.value,ast.Constant):
            yield n.targets[0].id,n.value.value,n.lineno
def cs(s): return '"'+s.replace('"','""')+'"'
def strkeys(f,cls,pref):
    c=classes(f)[cls]
    w(f'(** {f}:{c.lineno}-{c.end_lineno} class {cls} (dictionary keys) *)')
    for n,v,l in assigns(c): w(f'Definition {pref}_{n} : key := KS {cs(v)}.')
    w('')
def strvals(f,cls,pref):
    c=classes(f)[cls]
    w(f'(** {f}:{c.lineno}-{c.end_lineno} class {cls} (string values) *)')
    for n,v,l in assigns(c):
        if all(ord(x)<128 for x in v): w(f'Definition {pref}_{n} : pystr := u {cs(v)}.')
        else: w(f'Definition {pref}_{n} : pystr := [{"; ".join(str(ord(x)) for x in v)}].')
    w('')
def ints(f,cls,pref):
    c=classes(f)[cls]
    w(f'(** {f}:{c.lineno}-{c.end_lineno} class {cls} *)')
    for n,v,l in assigns(c): w(f'Definition {pref}_{n} : Z := {v}.')
    w('')
def enum(f,cls):
    c=classes(f)[cls]
    w(f'(** {f}:{c.lineno}-{c.end_lineno} enum {cls}: (member name, value) in definition order *)')
    w(f'Definition {cls} : list (string * Z) :=\n  ['+';\n   '.join(f'({cs(n)}, {v})' for n,v,l in assigns(c))+'].')
    for n,v,l in assigns(c): w(f'Definition {cls}_{n} : Z := {v}.')
    w('')
strkeys('const/data.py','ATTR','ATTR')
strkeys('const/data.py','DEVICE','DEVICE')
strkeys('const/data.py','GROUP','GROUP')
strkeys('const/data.py','VALUE','VALUE')
strvals('const/common.py','DEVICE_TYPE','DEVICE_TYPE')
strvals('const/common.py','STATE_TYPE','STATE_TYPE')
strvals('const/common.py','UNIT','UNIT')
ints('const/msg.py','CODE','CODE')
enum('const/common.py','ON_OFF')
for e in ['BODY_TYPE','CONTROLLER_STATE','EQUIPMENT_FLAG','COLOR_MODE']: enum('device_const/system.py',e)
for e in ['FUNCTION','INTERFACE']: enum('device_const/circuit.py',e)
for e in ['HEAT_MODE','HEAT_STATE']: enum('device_const/heat.py',e)
for e in ['PUMP_TYPE']: enum('device_const/pump.py',e)
for e in ['STATUS_FLAG','STATE_FLAG']: enum('device_const/scg.py',e)
for e in ['ALARM_FLAG','ALERT_FLAG','BALANCE_FLAG','CONFIG_FLAG','DOSE_MASK','DOSE_STATE','DOSE_TYPE_ORP','DOSE_TYPE_PH']: enum('device_const/chemistry.py',e)
strvals('device_const/chemistry.py','BALANCE','BALANCE')
# hardware map
t=ast.parse(open(R+'device_const/system.py').read())
c=[n for n in t.body if isinstance(n,ast.ClassDef) and n.name=='CONTROLLER'][0]
m=[n for n in c.body if isinstance(n,ast.Assign)][0]
d=ast.literal_eval(m.value)
w(f'(** device_const/system.py:{m.lineno}-{m.end_lineno} CONTROLLER_HARDWARE_MAP *)')
w('Definition CONTROLLER_HARDWARE_MAP : list (Z * list (Z * string)) :=\n  ['+';\n   '.join(f'({a}, ['+'; '.join(f'({b}, {cs(s)})' for b,s in x.items())+'])' for a,x in d.items())+'].')
for n in t.body:
    if isinstance(n,ast.Assign) and n.targets[0].id=='EQUIPMENT_MASK_736':
        w(f'(** device_const/system.py:{n.lineno} *)\nDefinition EQUIPMENT_MASK_736 : Z := {n.value.value}.')
t=ast.parse(open(R+'const/common.py').read())
for n in t.body:
    if isinstance(n,ast.Assign):
        nm=n.targets[0].id
        if isinstance(n.value,ast.Constant):
            v=n.value.value
            w(f'(** const/common.py:{n.lineno} *)')
            w(f'Definition {nm} : Z := {v}.' if isinstance(v,int) else f'Definition {nm} : key := KS {cs(v)}.')
t=ast.parse(open(R+'const/data.py').read())
for n in t.body:
    if isinstance(n,ast.Assign):
        w(f'(** const/data.py:{n.lineno}-{n.end_lineno} *)')
        w('Definition SHARED_VALUES : list key := ['+'; '.join('VALUE_'+e.attr for e in n.value.elts)+'].')
w('''
(** const/data.py:137-138 UNKNOWN(offset): f"unknown_at_offset_{offset:02}" *)
Definition UNKNOWN (offset : Z) : key :=
  KS ("unknown_at_offset_" ++ zpad 2 (string_of_Z offset))%string.''')
open('/verif/rocq/theories/Const.v','w').write('\n'.join(out)+'\n')
