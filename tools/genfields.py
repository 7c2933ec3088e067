#!/usr/bin/env python3
"""Generate rocq/theories/FieldAttrs.v: the class attributes of every field parser in
/repo/httplint/field/parsers, the alias table of finder.py, deprecated.py's and
unnecessary.py's tables.  Everything is read from the ast; nothing from /repo is run."""
import ast, glob, os, sys
R = '/repo/httplint/field/'
SPEC = {}
for f in glob.glob('/repo/httplint/syntax/*.py'):
    for s in ast.parse(open(f).read()).body:
        if isinstance(s, ast.Assign) and s.targets[0].id == 'SPEC_URL': SPEC[os.path.basename(f)[:-3]] = s.value.value
BASE = {}
for s in ast.parse(open(R + '__init__.py').read()).body:
    if isinstance(s, ast.Assign) and isinstance(s.value, ast.Constant): BASE[s.targets[0].id] = s.value.value
def ev(n, env):
    if isinstance(n, ast.Constant): return n.value
    if isinstance(n, ast.Name): return env[n.id]
    if isinstance(n, ast.Attribute):
        assert n.attr == 'SPEC_URL'; return SPEC[n.value.id]
    if isinstance(n, ast.JoinedStr): return ''.join(v.value if isinstance(v, ast.Constant) else ev(v.value, env) for v in n.values)
    raise ValueError(ast.dump(n))
KIND = {'SingletonField': 'KSingleton', 'HttpListField': 'KList', 'BrokenField': 'KBroken', 'StructuredField': 'KSF', 'JsonField': 'KJson'}
PROTO = {'RequestLinterProtocol': (1, 0), 'ResponseLinterProtocol': (0, 1), 'AnyMessageLinterProtocol': (1, 1), 'Any': (1, 1)}
SF = {'item': 'SFItem', 'list': 'SFList', 'dictionary': 'SFDict'}
CL = {}
for f in sorted(glob.glob(R + 'parsers/*.py')):
    m = os.path.basename(f)[:-3]
    if m == '__init__': continue
    t = ast.parse(open(f).read()); env = dict(BASE)
    for s in t.body:
        if isinstance(s, ast.Assign) and isinstance(s.targets[0], ast.Name) and isinstance(s.value, ast.Constant): env[s.targets[0].id] = s.value.value
    for c in t.body:
        if isinstance(c, ast.ClassDef) and c.name == m:
            b = c.bases[0]; assert len(c.bases) == 1
            a = {'line': c.lineno}
            if isinstance(b, ast.Subscript):
                a['kind'] = KIND[b.value.id]; a['req'], a['resp'] = PROTO[b.slice.id]
                if a['kind'] == 'KJson': a['syntax'] = None
            else:
                a.update(CL[b.id]); a['line'] = c.lineno; a['parent'] = b.id
            for s in c.body:
                if not isinstance(s, (ast.Assign, ast.AnnAssign)) or s.value is None: continue
                k = s.targets[0].id if isinstance(s, ast.Assign) else s.target.id
                v = s.value
                if k in ('canonical_name', 'reference', 'report_only_string', 'report_only_text'): a[k] = ev(v, env)
                elif k in ('deprecated', 'report_syntax'): a[k] = v.value
                elif k == 'category': a[k] = v.attr
                elif k == 'sf_type': a[k] = SF[v.value]
                elif k == 'syntax':
                    if isinstance(v, ast.Constant) and v.value is False: a['syntax'] = None
                    elif isinstance(v, ast.Attribute): a['syntax'] = f'{v.value.id}_{v.attr}'
                    else: a['syntax'] = f'field_{m}'
            CL[m] = a
G = open('/verif/rocq/theories/Grammar.v').read()
def q(s): return '"' + s.replace('"', '""') + '"'
def b(x): return 'true' if x else 'false'
print('''(** GENERATED by tools/genfields.py from the text of /repo/httplint/field: do not edit.

    The class attributes of every field linter (field/parsers/*.py), with the
    defaults of field/__init__.py:30-43 and the message kinds computed by
    [__init_subclass__] (field/__init__.py:53-97) from the protocol argument.
    A syntax is already wrapped in [nocase] (RE_FLAGS has IGNORECASE); for a
    list field it is the syntax of one element (list_field.py:35-39).  Fields
    whose class declares no [syntax] at all are structured fields, which never
    read it. *)
From Verif Require Import PyStr Regex Grammar Note.
Local Open Scope string_scope.

Inductive kind := KSingleton | KList | KBroken | KSF (t : sftype) | KJson | KUnknown.

Record fattrs := mkAttrs {
  fa_module : string;          (* module and class name under httplint.field.parsers *)
  fa_canon : option string;    (* canonical_name; None: the wire name is used *)
  fa_kind : kind;
  fa_syntax : option re;
  fa_report : bool;            (* report_syntax *)
  fa_ref : string;             (* reference *)
  fa_cat : category;
  fa_dep : bool;               (* deprecated *)
  fa_req : bool;               (* valid_in_requests *)
  fa_resp : bool               (* valid_in_responses *)
}.
''')
ms = list(CL)
print('Inductive fname :=\n' + '\n'.join(f'| F_{m}' for m in ms) + '\n(* deprecated.py DeprecatedField, unnecessary.py UnnecessaryField, finder.py UnknownHttpField *)\n| F__deprecated\n| F__unnecessary\n| F__unknown.\n')
print('Definition attrs (f : fname) : fattrs :=\n  match f with')
for m, a in CL.items():
    syn = a.get('syntax')
    if syn is None: s = 'None'
    else:
        if a['kind'] == 'KList' and f'Definition {syn}_element ' in G: syn += '_element'
        assert f'Definition {syn} ' in G, syn
        s = f'(Some {syn})' if m == 'access_control_allow_credentials' else f'(Some (nocase {syn}))'
    k = a['kind'] + (' ' + a.get('sf_type', 'SFItem') if a['kind'] == 'KSF' else '')
    cn = f"(Some {q(a['canonical_name'])})" if 'canonical_name' in a else 'None'
    print(f"  (* field/parsers/{m}.py:{a['line']} *)")
    print(f"  | F_{m} => mkAttrs {q(m)} {cn} {'(' + k + ')' if ' ' in k else k} {s} {b(a.get('report_syntax', True))} {q(a['reference'])} {a.get('category', 'GENERAL')} {b(a.get('deprecated', False))} {b(a['req'])} {b(a['resp'])}")
print('''  (* field/deprecated.py:194-199; canonical name, category and reference are set per instance *)
  | F__deprecated => mkAttrs "" None KList None true "" GENERAL true true true
  (* field/unnecessary.py:28-36 *)
  | F__unnecessary => mkAttrs "" None KList None true "about:blank" GENERAL false true true
  (* field/finder.py:88-95 *)
  | F__unknown => mkAttrs "" None KUnknown None true "about:blank" GENERAL false true true
  end.
''')
print('Definition module_fields : list fname :=\n  [' + ';\n   '.join(f'F_{m}' for m in ms) + '].\n')
fa = None
for n in ast.walk(ast.parse(open(R + 'finder.py').read())):
    if isinstance(n, ast.Assign) and getattr(n.targets[0], 'id', '') == 'field_aliases':
        fa = [(k.value, v.value) for k, v in zip(n.value.keys, n.value.values)]
print('(** finder.py:14-25 *)\nDefinition field_aliases : list (string * string) :=\n  [' + ';\n   '.join(f'({q(k)}, {q(v)})' for k, v in fa) + '].\n')
T = {}
for n in ast.parse(open(R + 'deprecated.py').read()).body:
    if isinstance(n, ast.AnnAssign): T[n.target.id] = {k.value: (v.elts[0].attr, v.elts[1].value) for k, v in zip(n.value.keys, n.value.values)}
fields = {}
for t in ('UNREGISGTERED_DEPRECATED_FIELDS', 'DEPRECATED_FIELDS', 'OBSOLETED_FIELDS'): fields.update(T[t])
print('(** deprecated.py:187-191: lower-cased name, canonical name, category, reference *)\nDefinition deprecated_fields : list (string * (string * category * string)) :=\n  [' + ';\n   '.join(f'({q(k.lower())}, ({q(k)}, {c}, {q(r)}))' for k, (c, r) in fields.items()) + '].\n')
assert len({k.lower() for k in fields}) == len(fields)
for n in ast.parse(open(R + 'unnecessary.py').read()).body:
    if isinstance(n, ast.Assign) and n.targets[0].id == 'UNNECESSARY_FIELDS': un = [k.value for k in n.value.keys]
print('(** unnecessary.py:7-25 *)\nDefinition unnecessary_fields : list string :=\n  [' + ';\n   '.join(map(q, un)) + '].\n')
print('''Definition kind_of (f : fname) : kind := fa_kind (attrs f).

Definition fname_eqb (a b : fname) : bool :=
  match a, b with''')
for m in ms: print(f'  | F_{m}, F_{m} => true')
print('''  | F__deprecated, F__deprecated | F__unnecessary, F__unnecessary | F__unknown, F__unknown => true
  | _, _ => false
  end.
Lemma fname_eqb_eq : forall a b, fname_eqb a b = true <-> a = b.
Proof. intros a b; split; [destruct a, b; simpl; congruence | intros ->; destruct b; reflexivity]. Qed.
Lemma module_fields_complete : forall f,
  f = F__deprecated \\/ f = F__unnecessary \\/ f = F__unknown \\/ In f module_fields.
Proof. intros f; destruct f; simpl; tauto. Qed.''')
