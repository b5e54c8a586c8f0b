#!/usr/bin/env python3
"""Reads the relationship helpers (methods Add<Relation>) of /repo and writes
rocq/theories/HelperTable.v.  Stops on any body of another shape."""
import re, glob, os
HEAD = re.compile(r'^func \((\w+) \*(\w+)\) (Add[A-Z]\w*)\((\w+) Identifier, opts \.\.\.STIXOption\) \(\*Relationship, error\) \{$')
rows = []
for f in sorted(glob.glob('/repo/*.go')):
    if f.endswith('_test.go'): continue
    L = open(f).read().split('\n')
    for i, l in enumerate(L):
        if not re.match(r'^func \(.*\) Add[A-Z]\w*\(', l): continue
        m = HEAD.match(l)
        assert m, (f, l)
        recv, typ, meth, arg = m.groups()
        j = i
        while L[j] != '}': j += 1
        body = ' '.join(x.strip() for x in L[i+1:j] if not x.strip().startswith('//'))
        r = re.match(r'^(?:if (.*) \{ return nil, ErrInvalidParameter \} )?return NewRelationship\((\w+), %s\.ID, %s, opts\.\.\.\)$' % (recv, arg), body)
        assert r, body
        cond, rel = r.groups()
        if cond is None: check = 'NoCheck'
        else:
            assert cond.startswith('!IsValidIdentifier(%s)' % arg), cond
            rest = cond[len('!IsValidIdentifier(%s)' % arg):]
            if rest == '': check = 'Valid'
            else:
                assert rest.startswith(' || '), rest
                rest = rest[4:]
                g = re.match(r'^!%s\.ForTypes\(([\w, ]+)\)$' % arg, rest)
                if g: ts = g.group(1).split(', ')
                else:
                    # a conjunction of !id.ForType(T), however parenthesised
                    ts = [re.match(r'^!%s\.ForType\((\w+)\)$' % arg, x.strip('( ') + (')' if not x.strip('( ').endswith(')') else '')) or x for x in re.sub(r'\)\)', ')', rest).replace('(!', '!').split(' && ')]
                    ts = [t.group(1) for t in ts]
                check = 'ValidFor [%s]' % '; '.join(ts)
        rows.append('Helper "%s" "%s" %s (%s) (* %s:%d-%d *)' % (typ, meth, rel, check, os.path.basename(f), i+1, j+1))
with open('/verif/rocq/theories/HelperTable.v', 'w') as o:
    o.write('''(** Generated by tools/gen_helpers.py from the relationship helpers in /repo. *)
From Verif Require Import GoStr Consts.

(** The check on the identifier before NewRelationship is called: none,
    IsValidIdentifier, or IsValidIdentifier and ForType of one of the types. *)
Inductive hcheck := NoCheck | Valid | ValidFor (types : list string).
(** A method: the type of the receiver, its name, the relationship type passed to
    NewRelationship, and the check. *)
Record helper := Helper { h_recv : string; h_name : string; h_rel : string; h_check : hcheck }.

(** The relationship helpers, each with its lines. *)
Definition helpers : list helper :=
  [''')
    sep = ''
    for r in rows:
        x, c = r.split(' (* ')
        o.write(sep + x + ('' if r is rows[-1] else ';') + ' (* ' + c)
        sep = '\n   '
    o.write('].\n')
print(len(rows))
