#!/usr/bin/env python3
"""Transcribe /repo/ramp/example/input_file_{1,2,3}.py (read as text, by Python's ast) into rocq/theories/Examples.v."""
import ast, sys
REPO='/repo/ramp/example/'
OUT='/verif/rocq/theories/Examples.v'
ARGS=['number','power','num_windows','func_time','time_fraction_random_variability','func_cycle','fixed','fixed_cycle',
      'continuous_duty_cycle','occasional_use','flat','thermal_p_var','pref_index','wd_we_type']   # constants.py APPLIANCE_ARGS
DEF=dict(number=1,power=0,num_windows=1,func_time=0,time_fraction_random_variability=0,func_cycle=1,fixed='no',fixed_cycle=0,
      continuous_duty_cycle=1,occasional_use=1,flat='no',thermal_p_var=0,pref_index=0,wd_we_type=2,name='')
def val(e):
    if isinstance(e,ast.Constant): return e.value
    if isinstance(e,ast.List): return [val(x) for x in e.elts]
    if isinstance(e,ast.BinOp) and isinstance(e.op,ast.Mult): return val(e.left)*val(e.right)
    if isinstance(e,ast.Name): return ('name',e.id)
    raise SystemExit('unexpected '+ast.dump(e))
def q(src):
    """a number literal as Coq Q: integers exactly, decimals through flit F"""
    v=src
    if isinstance(v,int): return str(v) if v>=0 else '(%d)'%v
    s=repr(v); a,b=s.split('.'); 
    if int(b)==0: return a
    return '(flit F (%d # 1%s))'%(int(a+b),'0'*len(b))
def w(x): return 'None' if x is None else '(Some (%d, %d))'%tuple(x)
def bind(names,call):
    d=dict(zip(names,[val(a) for a in call.args]))
    for k in call.keywords: d[k.arg]=val(k.value)
    return d
def transcribe(n):
    f='input_file_%d.py'%n
    tree=ast.parse(open(REPO+f).read())
    users=[]; uv={}; av={}
    listed=[]
    for st in tree.body:
        if isinstance(st,ast.If): break          # if __name__ == "__main__"
        if isinstance(st,(ast.Import,ast.ImportFrom)): continue
        if isinstance(st,ast.Expr) and isinstance(st.value,ast.Constant): continue   # docstrings
        lines='%s:%d%s'%(f,st.lineno,'' if st.end_lineno==st.lineno else '-%d'%st.end_lineno)
        if isinstance(st,ast.Assign):
            t=st.targets[0].id; c=st.value
            if isinstance(c,ast.List): continue    # User_list = []
            fn=c.func
            if isinstance(fn,ast.Name) and fn.id=='User':
                d=dict(user_name='',num_users=1,user_preference=0); d.update(bind(['user_name','num_users','user_preference'],c))
                uv[t]=dict(d,lines=lines,calls=[],k=0); users.append(uv[t])
            elif isinstance(fn,ast.Attribute) and fn.attr=='read_csv': pass       # the series P
            elif isinstance(fn,ast.Attribute) and fn.attr=='add_appliance':
                u=uv[fn.value.id]; d=dict(DEF); d.update(bind(ARGS,c))
                p=d['power']; pw='(PSeries P)' if isinstance(p,tuple) else '(PConst %s)'%q(p)
                par='(Params "%s" %d %d %d %s %d "%s" %d %d %s "%s" %s %d %d)'%(d['name'],d['number'],d['num_windows'],d['func_time'],
                    q(d['time_fraction_random_variability']),d['func_cycle'],d['fixed'],d['fixed_cycle'],d['continuous_duty_cycle'],
                    q(d['occasional_use']),d['flat'],q(d['thermal_p_var']),d['pref_index'],d['wd_we_type'])
                u['calls'].append('(* %s *) CAdd %s %s no_windows no_cycle no_cycle no_cycle'%(lines,par,pw))
                av[t]=(u,u['k']); u['k']+=1
            else: raise SystemExit(ast.dump(st))
        elif isinstance(st,ast.Expr) and isinstance(st.value,ast.Call):
            c=st.value; m=c.func.attr; o=c.func.value.id
            if o=='User_list': listed.append(c.args[0].id); continue
            u,k=av[o]
            if m=='windows':
                d=dict(window_1=None,window_2=None,random_var_w=0,window_3=None); d.update(bind(['window_1','window_2','random_var_w','window_3'],c))
                s='DWindows %s %s %s %s'%(w(d['window_1']),w(d['window_2']),q(d['random_var_w']),w(d['window_3']))
            elif m.startswith('specific_cycle_'):
                i=m[-1]; names=['p_%s1'%i,'t_%s1'%i,'p_%s2'%i,'t_%s2'%i,'r_c%s'%i]
                d=dict(zip(names,[0,0,0,0,0])); d.update(bind(names,c)); assert set(d)==set(names)
                s='DCycle %s (CycleArgs (Some %s%%Q) (Some %d) None (Some %s%%Q) (Some %d) None (Some %s%%Q))'%(i,q(d[names[0]]),d[names[1]],q(d[names[2]]),d[names[3]],q(d[names[4]]))
            elif m=='cycle_behaviour':
                names=['cw11','cw12','cw21','cw22','cw31','cw32']
                d=dict.fromkeys(names,None); d.update(bind(names,c)); assert set(d)==set(names)
                s='DBehaviour '+' '.join(w(d[x]) for x in names)
            else: raise SystemExit(m)
            u['calls'].append('(* %s *) COn %d (%s)'%(lines,k,s))
        else: raise SystemExit(ast.dump(st))
    assert [id(uv[x]) for x in listed]==[id(u) for u in users], 'User_list order'
    out=[]
    for u in users:
        out.append('  (* %s *)\n  EUser "%s" %d %d [\n    %s]'%(u['lines'],u['user_name'],u['num_users'],u['user_preference'],';\n    '.join(u['calls'])))
    return ';\n'.join(out)
HEAD='''(** * Examples: the example inputs shipped with RAMP, ramp/example/input_file_1.py, _2.py, _3.py

    Transcribed statement by statement by tools/mk_examples.py (Python's ast on the text of the files).  A decimal literal of
    the source is [flit F] of its decimal value (the parser rounds it), an integer literal is exact.  The blocks under
    [if __name__ == "__main__"] are modelled by [simulate] (PropsTotal.v). *)
From Verif Require Import Base Utils Appliance User Declare Script.
From Coq Require Import String.
Open Scope string_scope.
Open Scope list_scope.
Open Scope Z_scope.

(** [User(name, num_users, user_preference)], core.py:649-674, and the statements about its appliances *)
Record example_user : Type := EUser { e_name : string; e_num : Z; e_pref : Z; e_calls : list call }.

(** running the statements of one user; its num_days is 366 (core.py:676-685, no use case yet).  The statements about
    different users touch different objects: they are grouped by user. *)
Definition build_user (F : fm) (strict : bool) (e : example_user) : res user :=
  match run_script F strict 366 (Registry [] []) (e_calls e) with
  | (g, None) => Ok (set_apps (new_user (e_name e) (e_num e) (e_pref e)) (registered g))
  | (_, Some x) => Err x
  end.
Fixpoint build_users (F : fm) (strict : bool) (es : list example_user) : res (list user) :=
  match es with
  | [] => Ok []
  | e :: es' => rbind (build_user F strict e) (fun u => rbind (build_users F strict es') (fun us => Ok (u :: us)))
  end.
'''
s=HEAD
docs={1:'a village',2:'a shower; [P] is the series read from shower_P.csv (input_file_2.py:24)',3:'a household that cooks'}
for n in (1,2,3):
    s+='\n(** ramp/example/input_file_%d.py: %s *)\nDefinition input_file_%d (F : fm)%s : list example_user := [\n%s].\n'%(n,docs[n],n,' (P : list Q)' if n==2 else '',transcribe(n))
open(OUT,'w').write(s)
