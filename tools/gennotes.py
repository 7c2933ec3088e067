#!/usr/bin/env python3
"""Generate rocq/theories/NoteTable.v from the text of /repo (ast only; nothing is run)."""
import ast, glob, os
ROOT = '/repo/httplint'
out = []
notes = []
seen = {}
for f in sorted(glob.glob(ROOT + '/**/*.py', recursive=True)):
    t = ast.parse(open(f).read())
    for c in t.body:
        if not isinstance(c, ast.ClassDef): continue
        d = {}
        for s in c.body:
            if isinstance(s, ast.Assign) and isinstance(s.targets[0], ast.Name):
                d[s.targets[0].id] = s.value
        if not (('_summary' in d or '_text' in d) and c.bases): continue
        name = c.name
        rel = os.path.relpath(f, '/repo')
        if name in seen:
            name = name + '_' + os.path.basename(f)[:-3]
        seen[name] = 1
        cat = d['category'].attr; lev = d['level'].attr
        summ = d['_summary'].value if '_summary' in d else ''
        text = d['_text'].value if '_text' in d else ''
        for s in (summ, text):
            assert all(ord(ch) < 128 for ch in s), (name, s)
        notes.append((name, c.name, cat, lev, summ, text, rel, c.lineno, c.end_lineno))
def q(s): return '"' + s.replace('"', '""') + '"'
print('(** GENERATED by tools/gennotes.py from the text of /repo: do not edit.')
print('    One constructor per [Note] subclass, with the class attributes')
print('    [category], [level], [_summary], [_text] copied verbatim. *)')
print('From Coq Require Import String NArith List.')
print('Import ListNotations.')
print('Local Open Scope string_scope.')
print()
print('(** note.py:41-53 *)')
print('Inductive category := GENERAL | CONNECTION | SECURITY | CORS | COOKIES | CONNEG | CACHING | VALIDATION | RANGE.')
print('(** note.py:55-62 *)')
print('Inductive level := GOOD | WARN | BAD | INFO.')
print()
print('Inductive nid : Set :=')
for n in notes:
    print(f'| {n[0]} (* {n[6]}:{n[7]}-{n[8]} *)')
print('.')
print()
print('(** Python class name. *)')
print('Definition nid_name (n : nid) : string :=\n  match n with')
for n in notes: print(f'  | {n[0]} => {q(n[1])}')
print('  end.\n')
print('(** The file of the class, under httplint/. *)')
print('Definition nid_file (n : nid) : string :=\n  match n with')
for n in notes: print(f'  | {n[0]} => {q(n[6][len("httplint/"):])}')
print('  end.\n')
print('Definition nid_code (n : nid) : N :=\n  match n with')
for i, n in enumerate(notes): print(f'  | {n[0]} => {i}')
print('  end%N.\n')
print('Definition all_nids : list nid :=\n  [' + ';\n   '.join(n[0] for n in notes) + '].\n')
print('Definition nid_level (n : nid) : level :=\n  match n with')
for n in notes: print(f'  | {n[0]} => {n[3]}')
print('  end.\n')
print('Definition nid_category (n : nid) : category :=\n  match n with')
for n in notes: print(f'  | {n[0]} => {n[2]}')
print('  end.\n')
print('Definition nid_summary (n : nid) : string :=\n  match n with')
for n in notes: print(f'  | {n[0]} =>\n{q(n[4])}')
print('  end.\n')
print('Definition nid_text (n : nid) : string :=\n  match n with')
for n in notes: print(f'  | {n[0]} =>\n{q(n[5])}')
print('  end.\n')
print('''Lemma nid_code_nth n : nth_error all_nids (N.to_nat (nid_code n)) = Some n.
Proof. destruct n; reflexivity. Qed.
Lemma nid_code_inj a b : nid_code a = nid_code b -> a = b.
Proof.
  intros H. assert (E : Some a = Some b).
  { rewrite <- (nid_code_nth a), <- (nid_code_nth b), H. reflexivity. }
  congruence.
Qed.
Definition nid_eqb (a b : nid) : bool := N.eqb (nid_code a) (nid_code b).
Lemma nid_eqb_eq a b : nid_eqb a b = true <-> a = b.
Proof.
  unfold nid_eqb. rewrite N.eqb_eq. split; [apply nid_code_inj|intros ->; reflexivity].
Qed.
Lemma nid_eqb_refl a : nid_eqb a a = true.
Proof. apply nid_eqb_eq. reflexivity. Qed.
Lemma all_nids_complete n : In n all_nids.
Proof. eapply nth_error_In. apply nid_code_nth. Qed.''')
