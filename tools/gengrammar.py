#!/usr/bin/env python3
"""Generate rocq/theories/Grammar.v from the text of /repo/httplint/syntax/*.py (and the few
regexes written inside field parsers).  The module-level string constants are evaluated by a
tiny evaluator over the ast (string literals, f-strings, names, list_rule); nothing from /repo is
imported or run.  Each resulting pattern is parsed by Python's own re parser (re.VERBOSE) and
printed as a term of Regex.re; a sub-term equal to an already emitted one is printed by name."""
import ast, os, re, sys
try:
    import re._parser as sp, re._constants as sc
except ImportError:
    import sre_parse as sp, sre_constants as sc
ROOT = '/repo/httplint/syntax/'
MODS = ['rfc5234', 'rfc3986', 'rfc5322', 'rfc5646', 'rfc5987', 'rfc6838', 'rfc9110', 'rfc8288', 'rfc9111', 'rfc9112', 'rfc9651']

class LR:
    def __init__(self, element, minimum=None): self.element, self.minimum = element, minimum
    def text(self, OWS):   # rfc9110.py:93-111
        if self.minimum == 1: return r"(?: {e} (?: {o} , {o} {e} )* )".format(e=self.element, o=OWS)
        if self.minimum and self.minimum > 1:
            return r"(?: {e} (?: {o} , {o} {e} ){{{m},}} )".format(e=self.element, o=OWS, m=self.minimum-1)
        return r"(?: {e} (?: {o} , {o} {e} )* )?".format(e=self.element, o=OWS)

envs = {}
def ev(n, env):
    if isinstance(n, ast.Constant): return n.value
    if isinstance(n, ast.Name): return env[n.id]
    if isinstance(n, ast.Attribute): return envs[n.value.id][n.attr]
    if isinstance(n, ast.JoinedStr):
        r = ''
        for v in n.values:
            if isinstance(v, ast.Constant): r += v.value
            else:
                x = ev(v.value, env)
                if isinstance(x, LR): x = x.text(envs['rfc9110']['OWS'] if 'rfc9110' in envs else env['OWS'])
                assert v.conversion == -1 and v.format_spec is None
                r += str(x)
        return r
    if isinstance(n, ast.BinOp) and isinstance(n.op, ast.Add): return ev(n.left, env) + ev(n.right, env)
    if isinstance(n, ast.Call) and (getattr(n.func, 'id', None) == 'list_rule' or getattr(n.func, 'attr', None) == 'list_rule'):
        return LR(*[ev(a, env) for a in n.args])
    raise ValueError(ast.dump(n))

defs = []   # (coqname, pattern, cite)
for m in MODS:
    env = {}
    envs_m = env
    t = ast.parse(open(ROOT + m + '.py').read())
    for s in t.body:
        if isinstance(s, ast.ImportFrom) and s.level == 1:
            for a in s.names: env[a.asname or a.name] = envs[s.module].get(a.name)
        elif isinstance(s, ast.Assign):
            name = s.targets[0].id
            try: v = ev(s.value, env)
            except ValueError as e:
                print('skip', m, name, e, file=sys.stderr); continue
            env[name] = v
            if name == 'SPEC_URL' or isinstance(v, int): continue
            cite = f'syntax/{m}.py:{s.lineno}' + (f'-{s.end_lineno}' if s.end_lineno != s.lineno else '')
            if isinstance(v, LR):
                defs.append((f'{m}.{name}.element', v.element, cite + ' (list element)'))
                defs.append((f'{m}.{name}', v.text(envs['rfc9110']['OWS'] if 'rfc9110' in envs else env['OWS']), cite))
            else:
                defs.append((f'{m}.{name}', v, cite))
    envs[m] = env

# regexes written inside field code: (coq name, pattern text, citation)
E = lambda m, n: envs[m][n]
def T(x): return x.text(E('rfc9110', 'OWS')) if isinstance(x, LR) else x
P = '/repo/httplint/field/parsers/'
def cls_assign(path, var, extra=None):
    """value of a module or class level assignment in a parser file"""
    t = ast.parse(open(path).read())
    env = dict(envs['rfc9110'])     # for "from httplint.syntax.rfc9110 import ..."
    for s in t.body:
        if isinstance(s, ast.Assign) and isinstance(s.targets[0], ast.Name):
            try: env[s.targets[0].id] = ev(s.value, env)
            except Exception: pass
    for s in ast.walk(t):
        if isinstance(s, (ast.Assign,)) and isinstance(s.targets[0], ast.Name) and s.targets[0].id == var:
            return ev(s.value, env), f'field/parsers/{os.path.basename(path)}:{s.lineno}' + (f'-{s.end_lineno}' if s.end_lineno != s.lineno else '')
    raise KeyError(var)
import glob
for f in sorted(glob.glob(P + '*.py')):
    src = open(f).read()
    t = ast.parse(src)
    for c in t.body:
        if isinstance(c, ast.ClassDef):
            for s in c.body:
                if isinstance(s, ast.Assign) and isinstance(s.targets[0], ast.Name) and s.targets[0].id == 'syntax':
                    v = s.value
                    if isinstance(v, ast.Constant) and v.value is False: continue
                    if isinstance(v, ast.Attribute): continue    # a named rule: referenced directly
                    val, cite = cls_assign(f, 'syntax')
                    nm = 'field.' + c.name
                    if isinstance(val, LR):
                        defs.append((nm + '.element', val.element, cite + ' (list element)'))
                        defs.append((nm, T(val), cite))
                    else: defs.append((nm, val, cite))
defs.append(('utils.restricted_name_unbounded', rf"(?: {E('rfc6838','restricted_name_first')} {E('rfc6838','restricted_name_chars')}* )", 'field/utils.py:19-21'))
defs.append(('utils.list_item', r'((?:[^",]|%s)+)' % E('rfc9110', 'quoted_string'), 'field/utils.py:168'))
defs.append(('utils.list_split', r'(?:\s*(?:,\s*)+)', 'field/utils.py:168'))
defs.append(('utils.param_split', r'\s*;\s*', 'field/utils.py:187 with delim=";"'))
defs.append(('utils.param_split_comma', r'\s*,\s*', 'field/utils.py:187 with delim=","'))

# ---- AST -> Coq -----
SPACE = [(9,13),(28,32),(133,133),(160,160),(5760,5760),(8192,8202),(8232,8233),(8239,8239),(8287,8287),(12288,12288)]
def ranges(items):
    out = []
    for op, av in items:
        if op is sc.LITERAL: out.append((av, av))
        elif op is sc.RANGE: out.append(av)
        elif op is sc.CATEGORY and av is sc.CATEGORY_SPACE: out += SPACE
        elif op is sc.CATEGORY and av is sc.CATEGORY_DIGIT: out.append((48,57))
        else: raise ValueError((op, av))
    return out
def conv(p):
    """-> nested tuples"""
    items = []
    for op, av in p:
        if op is sc.LITERAL: items.append(('c', av))
        elif op is sc.NOT_LITERAL: items.append(('n', ((av, av),)))
        elif op is sc.ANY: items.append(('n', ((10, 10),)))
        elif op is sc.IN:
            if av[0][0] is sc.NEGATE: items.append(('n', tuple(ranges(av[1:]))))
            else:
                r = tuple(ranges(av))
                items.append(('c', r[0][0]) if len(r) == 1 and r[0][0] == r[0][1] else ('i', r))
        elif op is sc.BRANCH: items.append(('alt', tuple(conv(x) for x in av[1])))
        elif op is sc.SUBPATTERN:
            g, add, dele, sub = av
            if add: raise ValueError('flags')
            r = conv(sub)
            if dele: r = ('cased', r)
            items.append(r)
        elif op in (sc.MAX_REPEAT, sc.MIN_REPEAT):
            # a lazy repeat has the same language; its priority order is not modelled (only rfc9110.int_range)
            lo, hi, sub = av
            s = conv(sub)
            if hi is sc.MAXREPEAT:
                items.append(('star', s) if lo == 0 else ('plus', s) if lo == 1 else ('atleast', lo, s))
            elif (lo, hi) == (0, 1): items.append(('opt', s))
            elif lo == hi: items.append(('rep', lo, s))
            elif lo == 0: items.append(('upto', hi, s))
            else: items.append(('between', lo, hi, s))
        else: raise ValueError((op, av))
    if len(items) == 1: return items[0]
    return ('seq', tuple(items))

known = {('i', tuple(SPACE)): 'ws'}
def group(items, top):
    # longest contiguous run equal to a known sequence is printed by name
    out = []; i = 0
    seqs = sorted((k for k in known if k[0] == 'seq' and len(k[1]) > 1), key=lambda k: -len(k[1]))
    while i < len(items):
        for k in seqs:
            n = len(k[1])
            if tuple(items[i:i+n]) == k[1] and not (top and n == len(items)):
                out.append(known[k]); i += n; break
        else:
            j = i
            while j < len(items) and items[j][0] == 'c' and 33 <= items[j][1] < 127 and items[j][1] != 34: j += 1
            if j - i >= 2:
                out.append('lit "' + ''.join(chr(x[1]) for x in items[i:j]) + '"'); i = j
            else:
                out.append(pr(items[i])); i += 1
    return out
def chs(r): return '; '.join(f'({a}, {b})' for a, b in r)
def pr(t, top=False):
    if not top and t in known: return known[t]
    k = t[0]
    if k == 'c': return f'chr {t[1]}'
    if k == 'i': return f'cls [{chs(t[1])}]'
    if k == 'n': return f'ncls [{chs(t[1])}]'
    if k == 'cased': return pr(t[1])
    w = lambda x: (lambda s: s if ' ' not in s else '(' + s + ')')(pr(x))
    if k == 'seq':
        items = group(list(t[1]), top)
        if len(items) == 1: return items[0]
        return 'seqs [' + '; '.join(items) + ']'
    if k == 'alt': return 'alts [' + '; '.join(pr(x) for x in t[1]) + ']'
    if k == 'star': return 'Star ' + w(t[1])
    if k == 'plus': return 'Plus ' + w(t[1])
    if k == 'opt': return 'Opt ' + w(t[1])
    if k == 'atleast': return f'atleast {t[1]}%nat ' + w(t[2])
    if k == 'rep': return f'rep {t[1]}%nat ' + w(t[2])
    if k == 'upto': return f'upto {t[1]}%nat ' + w(t[2])
    if k == 'between': return f'between {t[1]}%nat {t[2]}%nat ' + w(t[3])
    raise ValueError(k)
print('''(** GENERATED by tools/gengrammar.py from the text of /repo/httplint/syntax/*.py: do not edit.

    Each definition is the regular expression of one ABNF rule, after f-string
    substitution, as Python's re parser reads it with re.VERBOSE (whitespace
    and unescaped # comments removed).  re.IGNORECASE is applied at the use
    sites with [nocase]. *)
From Verif Require Import PyStr Regex.
''')
names = set(); pats = {}
for nm, pat, cite in defs:
    coq = nm.replace('.', '_')
    if coq in ('rfc9110_token_',): pass
    try:
        tree = conv(sp.parse(pat, re.VERBOSE))
    except Exception as e:
        print('FAIL', nm, e, pat[:100], file=sys.stderr); raise
    pats[coq] = pat
    body = known.get(tree) or pr(tree, top=True)
    print(f'(** {cite} *)\nDefinition {coq} : re := {body}.')
    if tree not in known and tree[0] not in ('c',): known[tree] = coq
import json
if len(sys.argv) > 1: json.dump(pats, open(sys.argv[1], 'w'))
