#!/usr/bin/env python3
"""Translate the CycloneDX JSON schemas in the repository into Coq data.

usage: schema2coq.py /repo/cyclonedx-bom/test-utils/schema > rocq/theories/SchemaText.v

The output is committed; this script is only needed to regenerate it.  Keywords
without meaning for validation (title, description, default, examples, meta:enum,
$comment, $id, $schema) are dropped, siblings of $ref are dropped as draft-07
says, and any keyword not known here stops the translation, except in the
definition publicKey of the signature schema (never written by the library),
of which only the part listed in LENIENT is kept.
"""
import json, re, sys

DROP = {'title', 'description', 'default', 'examples', 'meta:enum', '$comment', '$id',
        '$schema', 'additionalItems', 'definitions', 'deprecated'}
TYPES = {t: 'Ty_' + t for t in ('object', 'array', 'string', 'integer', 'number', 'boolean')}
LENIENT = {'publicKey': ['type', 'required']}


def q(s):
    return '"' + s.replace('"', '""') + '"'


def strs(l):
    return '[' + '; '.join(q(x) for x in l) + ']'


def lst(l):
    return '[' + '; '.join(l) + ']'


PATTERNS = {}  # text -> (name, translation)


# ---- regular expressions: the subset the schemas use ----
class Re:
    def __init__(self, s):
        self.s, self.i = s, 0

    def peek(self):
        return self.s[self.i] if self.i < len(self.s) else None

    def take(self):
        c = self.s[self.i]
        self.i += 1
        return c

    def alt(self):
        r = self.seq()
        if self.peek() == '|':
            self.take()
            return f'(RAlt {r} {self.alt()})'
        return r

    def seq(self):
        out = []
        while self.peek() not in (None, '|', ')', '$'):
            a = self.quant()
            if out and a[0] == 'lit' == out[-1][0]:
                out[-1] = ('lit', out[-1][1] + a[1])
            else:
                out.append(a)
        out = [f'(lit {q(a[1])})' if a[0] == 'lit' else a[1] for a in out]
        return f'(seqs {lst(out)})' if len(out) != 1 else out[0]

    def quant(self):
        kind, a = self.atom()
        c = self.peek()
        if c is not None and c in '*+?{' and kind == 'lit':
            a = f'(lit {q(a)})'
        if c == '*':
            self.take()
            return 're', f'(RStar {a})'
        if c == '+':
            self.take()
            return 're', f'(plus {a})'
        if c == '?':
            self.take()
            return 're', f'(opt_re {a})'
        if c == '{':
            m = re.match(r'\{(\d+)\}', self.s[self.i:])
            assert m, self.s
            self.i += m.end()
            return 're', f'(rep {m.group(1)} {a})'
        return kind, a

    def atom(self):
        c = self.take()
        assert c != '^'
        if c == '(':
            r = self.alt()
            assert self.take() == ')'
            return 're', r
        if c == '[':
            return 're', self.cls()
        if c == '.':
            return 're', '(RSet (fun c => negb (Ascii.eqb c LF)))'
        if c == '\\':
            c = self.take()
            assert c in '/.-', c
        assert c not in '*+?{}|)]', c
        return 'lit', c

    def cls(self):
        items = []
        while self.peek() != ']':
            c = self.take()
            assert c not in '^\\[', self.s
            if self.peek() == '-' and self.s[self.i + 1] != ']':
                self.take()
                items.append(f'in_range "{c}" "{self.take()}" c')
            else:
                items.append(f'Ascii.eqb c "{c}"')
        self.take()
        return '(RSet (fun c => ' + ' || '.join(items) + '))'


def regex(s):
    assert s[0] == '^' and s[-1] == '$', s
    if s not in PATTERNS:
        p = Re(s[1:])
        r = p.alt()
        assert p.i == len(s) - 2, s
        PATTERNS[s] = (f'pattern_{len(PATTERNS) + 1}', f'full {r}')
    return PATTERNS[s][0]


# ---- schemas ----
def ref(r, home):
    if r == 'spdx.schema.json':
        return 'spdx'
    m = re.fullmatch(r'jsf-0\.82\.schema\.json#/definitions/(\w+)', r)
    if m:
        return 'jsf:' + m.group(1)
    m = re.fullmatch(r'#/definitions/([\w-]+)', r)
    assert m, r
    return home + m.group(1)


def schema(s, home):
    assert isinstance(s, dict), s
    if '$ref' in s:
        return f'Sch [KRef {q(ref(s["$ref"], home))}]'
    out = []
    for k, x in s.items():
        if k in DROP:
            continue
        if k == 'type':
            ts = x if isinstance(x, list) else [x]
            assert len(ts) == 1
            out.append(f'KType {TYPES[ts[0]]}')
        elif k == 'enum':
            assert all(isinstance(e, str) for e in x)
            out.append(f'KEnum {strs(x)}')
        elif k == 'required':
            out.append(f'KRequired {strs(x)}')
        elif k == 'properties':
            out.append('KProperties ' + lst([f'({q(n)}, {schema(y, home)})' for n, y in x.items()]))
        elif k == 'additionalProperties':
            if x is True:
                continue
            assert x is False
            out.append(f'KOnly {strs(s.get("properties", {}).keys())}')
        elif k == 'items':
            if isinstance(x, list):
                out.append('KTuple ' + lst([schema(y, home) for y in x]))
            else:
                out.append(f'KItems ({schema(x, home)})')
        elif k == 'uniqueItems':
            if x:
                out.append('KUnique')
        elif k == 'pattern':
            out.append(f'KPattern {regex(x)}')
        elif k == 'format':
            out.append(f'KFormat {q(x)}')
        elif k in ('anyOf', 'oneOf', 'allOf'):
            out.append(f'K{k[0].upper()}{k[1:]} ' + lst([schema(y, home) for y in x]))
        elif k in ('minimum', 'maximum'):
            out.append(f'K{k.capitalize()} {x}%Z')
        elif k in ('minLength', 'maxLength', 'minItems', 'maxItems'):
            out.append(f'K{k[0].upper()}{k[1:]} {x}%N')
        else:
            raise SystemExit(f'unknown keyword {k}: {x}')
    return 'Sch ' + lst(out)


def ident(prefix, n):
    return prefix + re.sub(r'\W', '_', n)


def wrap(t, width=110):
    """Break long lines at spaces outside strings."""
    out, line, instr = [], '', False
    words, w = [], ''
    for ch in t:
        if ch == '"':
            instr = not instr
        if ch == ' ' and not instr:
            words.append(w)
            w = ''
        else:
            w += ch
    words.append(w)
    for w in words:
        if line and len(line) + 1 + len(w) > width:
            out.append(line)
            line = '  ' + w
        else:
            line = line + ' ' + w if line else w
    out.append(line)
    return '\n'.join(out)


def main(d):
    print('''(** The CycloneDX JSON schemas, as data.  Generated by tools/schema2coq.py from the files
    bom-1.3.schema.json, bom-1.4.schema.json, bom-1.5.schema.json, jsf-0.82.schema.json and
    spdx.schema.json in cyclonedx-bom/test-utils/schema of the repository; see that script for
    what is left out. *)
From Verif Require Import Base ModelTypes Strings Regex Json Schema.
From Coq Require Import ZArith.
Open Scope string_scope.
Open Scope list_scope.
Open Scope bool_scope.
''')
    boms = {v: json.load(open(f'{d}/bom-{v}.schema.json')) for v in ('1.3', '1.4', '1.5')}
    for b in boms.values():  # collect the patterns
        schema(b, '')
        for s in b['definitions'].values():
            schema(s, '')
    for text, (name, r) in PATTERNS.items():
        assert '(*' not in text and '*)' not in text and '"' not in text
        print(f'(** {text} *)')
        print(wrap(f'Definition {name} : re := {r}.'))
    print()
    spdx = json.load(open(f'{d}/spdx.schema.json'))
    print('(** spdx.schema.json *)')
    print(wrap(f'Definition spdx_ids : list string := {strs(spdx["enum"])}.'))
    print('Definition spdx_schema : schema := Sch [KType Ty_string; KEnum spdx_ids].\n')
    jsf = json.load(open(f'{d}/jsf-0.82.schema.json'))
    names = []
    print('(** jsf-0.82.schema.json *)')
    for n, s in jsf['definitions'].items():
        if n in LENIENT:
            s = {k: s[k] for k in LENIENT[n]}
        i = ident('jsf_', n)
        print(wrap(f'Definition {i} : schema := {schema(s, "jsf:")}.'))
        names.append((f'jsf:{n}', i))
    print()
    print(wrap('Definition shared_definitions : list (string * schema) := ' +
               lst(['("spdx", spdx_schema)'] + [f'({q(n)}, {i})' for n, i in names]) + '.'))
    for v, b in boms.items():
        p = 's' + v.replace('.', '') + '_'
        print(f'\n(** bom-{v}.schema.json *)')
        print(wrap(f'Definition {p}root : schema := {schema(b, "")}.'))
        ns = []
        for n, s in b['definitions'].items():
            print(wrap(f'Definition {ident(p, n)} : schema := {schema(s, "")}.'))
            ns.append(f'({q(n)}, {ident(p, n)})')
        print(wrap(f'Definition {p}definitions : list (string * schema) := {lst(ns)} ++ shared_definitions.'))
    print('''
Definition schema_root (v : spec_version) : schema :=
  match v with V1_3 => s13_root | V1_4 => s14_root | V1_5 => s15_root end.
Definition schema_definitions (v : spec_version) : list (string * schema) :=
  match v with V1_3 => s13_definitions | V1_4 => s14_definitions | V1_5 => s15_definitions end.''')


main(sys.argv[1])
