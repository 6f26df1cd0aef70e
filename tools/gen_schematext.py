"""Reads /repo/capnpy/schema.py and annotate.py as text and writes
rocq/theories/SchemaText.v: the methods of every generated class, word for
word, and what ClassText.v takes as parameters: the layout and the names."""
import re, sys
sys.path.insert(0, '/verif/tools')
from gen_schemapy import parse, fields, coqstr

def names_of(text):
    t = ' '.join(x.strip() for x in text)
    m = re.search(r'return _AnyPointer', t)
    cls = re.search(r'obj = (\w+).__new__\(\1\) obj._init_from_pointer', t)
    grp = re.search(r'obj = (\w+).__new__\(\1\) _Struct', t)
    enm = re.search(r'return (\w+)._new\(value\)', t)
    itm = re.search(r'return self._read_list\(\d+, (\w+)\)', t)
    return [x.group(1) if x else '' for x in (cls, enm, grp, itm)] + ['']

def main():
    out = []; w = out.append
    w('''(** The text of the methods of the classes of capnpy/schema.py and
    capnpy/annotate.py, word for word, from the first is_foo to the last
    constructor, and the names in it. Written by tools/gen_schematext.py. *)
From Verif Require Import Base List Ctor Loader GenText.
From Coq Require Import String.
From Coq Require Import Lists.List.
Local Open Scope string_scope.
Local Open Scope list_scope.
Local Open Scope Z_scope.

Definition table := list (string * string * (string * string * string * string * string)).
Definition names_in (t : table) (prefix n : string) : names :=
  match find (fun x => String.eqb (fst (fst x)) prefix && String.eqb (snd (fst x)) n) t with
  | Some (_, (a, b, c, d, e)) => mknames (lit a) (lit b) (lit c) (lit d) (lit e)
  | None => mknames [] [] [] [] []
  end.
''')
    allc = []
    reprs = []
    for fn in ('schema', 'annotate'):
        path = '/repo/capnpy/%s.py' % fn
        lines = open(path).read().split('\n')
        classes = parse(path)
        def item(n):
            m = re.match(r'_(\w+)_list_item_type$', n)
            c = classes.get(m.group(1))
            return '(ITStruct %d %d)' % (c.data, c.ptrs)
        for c in classes.values():
            body = []
            started = False
            for l in lines[c.line:c.end]:
                if l == '    def shortrepr(self):': break
                if not started and (l.startswith('    def is_') or l == '    @property' or l == '    @staticmethod'): started = True
                if started: body.append(l)
            else: raise ValueError(c.name)
            ri = lines.index('    def shortrepr(self):', c.line)
            rj = lines.index('        return "(%s)" % ", ".join(parts)', ri)
            assert rj < c.end
            rep = lines[ri:rj + 1]
            caps = re.findall(r'parts.append\("(\w+) = %s"', '\n'.join(rep))
            table = []
            for (name, b, line) in c.props: table.append(('', name, names_of(b)))
            for l in (c.new or []):
                l = l.strip()
                m = re.match(r'builder.copy_from_struct\(pos \+ \d+, (\w+), (\w+)\)', l)
                if m: cur = [m.group(2), 0, m.group(1)]
                else:
                    m = re.match(r'builder.copy_from_list\(pos \+ \d+, (\w+), (\w+)\)', l)
                    cur = [m.group(2), 3, m.group(1)] if m else None
                mm = re.match(r"raise NotImplementedError\('Unsupported field type: (.*)'\)", l)
                if mm: cur = [last, 4, mm.group(1)]
                m = re.match(r"if (\w+) is not _undefined:", l)
                if m: last = m.group(1)
                if cur is None: continue
                v, i, x = cur
                done = False
                for t in table:
                    if t[0] == '' and t[1] == v:
                        assert i == 4 or t[2][i] == x, (t, cur); t[2][i] = x; done = True
                if not done:
                    # the variable of a field of a group
                    k = v.rindex('_')
                    t = ['', '', '', '', '']; t[i] = x
                    table.append((v[:k], v[k+1:], t))
            if c.new is not None:
                fs = fields(c, classes, item); group = 'false'
            else:
                fs = fields(c, classes, item) ; group = 'true'
            u = 'None' if c.tag is None else '(Some %d)' % (c.tag // 2)
            nm = 't_' + c.name
            w('(** %s.py:%d-%d *)' % (fn, c.line, c.end))
            w('Definition %s_node : struct_node := mksn %d %d %s\n  [%s].' % (nm, c.data, c.ptrs, u, ';\n   '.join(fs)))
            w('Definition %s_names : table := [%s].' % (nm, ';\n  '.join('("%s", "%s", (%s))' % (a, b, ', '.join(coqstr(x) for x in t)) for a, b, t in table if any(t))))
            w('Definition %s : list string := [\n%s].\n' % (nm, ';\n'.join(coqstr(x) for x in body)))
            reprs.append('(** %s.py:%d-%d *)\nDefinition r_%s : struct_node * list string * list string := (t_%s_node,\n  [%s], [\n%s]).\n' % (
                fn, ri + 1, rj + 1, c.name, c.name, '; '.join('"%s"' % x for x in caps), ';\n'.join(coqstr(x) for x in rep)))
            reprs.append(c.name)
            allc.append('("%s", %s, %s_node, %s_names, %s)' % (c.name, group, nm, nm, nm))
    w('(** name, isGroup, layout, names, text *)')
    w('Definition texts : list (string * bool * struct_node * table * list string) :=\n  [%s].' % ';\n   '.join(allc))
    open('/verif/rocq/theories/SchemaText.v', 'w').write('\n'.join(out) + '\n')
    r = ['''(** The text of shortrepr() in the classes of capnpy/schema.py and
    capnpy/annotate.py, word for word, with the layout of SchemaText.v and the
    names of the fields in the schema. Written by tools/gen_schematext.py. *)
From Verif Require Import Base Case Ctor SchemaText.
From Coq Require Import String.
From Coq Require Import Lists.List.
Local Open Scope string_scope.
Local Open Scope list_scope.
Local Open Scope Z_scope.
'''] + reprs[0::2] + ['(** layout, names in the schema, text *)\nDefinition repr_texts : list (struct_node * list string * list string) :=\n  [%s].' % '; '.join('r_' + x for x in reprs[1::2])]
    open('/verif/rocq/theories/SchemaRepr.v', 'w').write('\n'.join(r) + '\n')
    print(len(allc), 'classes')
if __name__ == '__main__': main()
