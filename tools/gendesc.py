"""Generates rocq/theories/Describe.v: the descriptions of the fields (read as text from /repo)."""
import ast, glob, os
R='/repo/httplint/field/'
def q(s):
    return '"'+s.replace('"','""')+'"'
classes={}
def load(path,mod):
    src=open(path).read(); t=ast.parse(src)
    consts={}
    for n in t.body:
        if isinstance(n,ast.ClassDef):
            d=None;line=None
            for s in n.body:
                tgt=None
                if isinstance(s,ast.Assign): tgt=s.targets[0]; val=s.value
                elif isinstance(s,ast.AnnAssign) and s.value is not None: tgt=s.target; val=s.value
                if isinstance(tgt,ast.Name) and tgt.id=='description':
                    d=ast.literal_eval(val); line=s.lineno
            bases=[b.id if isinstance(b,ast.Name) else b.value.id if isinstance(b,ast.Subscript) else b.attr for b in n.bases]
            classes[(mod,n.name)]=(d,line,bases)
for p in sorted(glob.glob(R+'parsers/*.py')):
    m=os.path.basename(p)[:-3]
    if m!='__init__': load(p,m)
def find(mod,name):
    d,line,bases=classes[(mod,name)]
    if d is not None: return d,mod,line
    for b in bases:
        for (m2,n2) in classes:
            if n2==b: 
                r=find(m2,n2)
                if r: return r
    return None
fa=open('/verif/rocq/theories/FieldAttrs.v').read()
import re
names=re.findall(r'\| (F_\w+) => mkAttrs "(\w+)"',fa)
out=['''(** * Descriptions of fields: field/description.py, the [description] attributes of
    field/parsers/*.py, field/deprecated.py and field/unnecessary.py.
    The tables are generated by tools/gendesc.py; translation (i18n.py) is not
    modelled: the locale is the default one, whose catalogue is the source text. *)
From Verif Require Import PyStr Note FieldAttrs Types Framework.
Local Open Scope string_scope.

(** The class attribute [description] of each field class (file and line at each case). *)
Definition description_of (f : fname) : string :=
  match f with''']
for f,m in names:
    if f in('F__deprecated','F__unnecessary','F__unknown'): continue
    r=find(m,m)
    assert r,(f,m)
    out.append('  (* parsers/%s.py:%d *)\n  | %s => %s'%(r[1],r[2],f,q(r[0])))
out.append('''  | F__deprecated | F__unnecessary => ""
  | F__unknown => "Unknown"
  end.
''')
t=ast.parse(open(R+'unnecessary.py').read())
for n in t.body:
    if isinstance(n,ast.Assign) and n.targets[0].id=='UNNECESSARY_FIELDS': D=ast.literal_eval(n.value)
out.append('(** unnecessary.py:7-24 *)\nDefinition unnecessary_texts : list (string * string) :=\n  ['+';\n   '.join('(%s, %s)'%(q(k),q(v)) for k,v in D.items())+'].\n')
out.append('''(** deprecated.py:209-211, unnecessary.py:36, and the class attribute: the
    [description] of a handler for [name]. *)
Definition describe_as (f : fname) (canon norm : str) (ref : string) : str :=
  match f with
  | F__deprecated =>
      (u "The " ++ canon ++ u " field is deprecated; it is not actively used by HTTP software.
It is safe to remove it from this message. For more information, see [here](" ++ u ref ++ u ").")%list
  | F__unnecessary => match slookup norm unnecessary_texts with Some s => u s | None => [] end
  | _ => u (description_of f)
  end.
Definition describe (name : str) : str :=
  let h := new_handler name in describe_as (h_cls h) (h_canon h) (h_norm h) (handler_ref h).
(** description.py:10-17 [get_field_description]; find_handler_class is None for an unknown name.
    [field_name] is an ASCII string. *)
Definition get_field_description (name : str) : option str :=
  if fname_eqb (find_class name) F__unknown then None
  else match describe name with [] => None | d => Some d end.
''')
open('/verif/rocq/theories/Describe.v','w').write('\n'.join(out))
