"""Reads /repo/capnpy/schema.py and annotate.py as text and writes
rocq/theories/SchemaModule.v: the nodes that the text declares, and the text of
the whole file, word for word (the methods are those of SchemaText.v and
SchemaRepr.v)."""
import re, sys
sys.path.insert(0, '/verif/tools')
from gen_schemapy import parse, coqstr

def names(l): return '(map lit [%s])' % '; '.join('"%s"' % x for x in l)

def module(fn, w):
    path = '/repo/capnpy/%s.py' % fn
    lines = open(path).read().split('\n')
    classes = parse(path)
    d = lines.index('#### DEFINITIONS ####')
    ids = {}
    for c in classes.values():
        m = re.match(r'    __capnpy_id__ = 0x([0-9a-f]+)$', lines[c.line]); ids[c.name] = int(m.group(1), 16)
    # the declarations, in order
    decls = []
    i = lines.index('#### FORWARD DECLARATIONS ####')
    while i < d:
        l = lines[i]
        m = re.match(r'class (\w+)\(_Struct\): pass$', l)
        if m:
            dot = re.match(r"%s.__name__ = '(.*)'$" % m.group(1), lines[i + 1]).group(1)
            decls.append(('struct', m.group(1), dot))
        m = re.match(r'class (\w+)\(_BaseEnum\):$', l)
        if m and not m.group(1).endswith('__tag__'):
            n = int(re.match(r'    __capnpy_id__ = (\d+)$', lines[i + 1]).group(1))
            members = re.findall(r"'(\w+)'", lines[i + 2])
            decls.append(('enum', m.group(1), n, members))
        m = re.match(r'class (\w+)\(object\):$', l)
        if m:
            n = int(re.match(r'    __capnpy_id__ = 0x([0-9a-f]+)$', lines[i + 1]).group(1), 16)
            t = [re.match(r'    targets_\w+ = (True|False)$', x).group(1).lower() for x in lines[i + 2:i + 14]]
            decls.append(('ann', m.group(1), n, t))
        i += 1
    kids = {}
    for x in decls:
        parent = x[2].rpartition('.')[0] if x[0] == 'struct' else ''
        kids.setdefault(parent, []).append(x)
    def node(x, ind):
        if x[0] == 'enum': return '%sNEnum (lit "%s") (lit "%s") %d %s' % (ind, x[1], x[1], x[2], names(x[3]))
        if x[0] == 'const': return '%sNConst (lit "%s") (lit %s)' % (ind, x[1], coqstr(x[2]))
        if x[0] == 'ann': return '%sNAnn (lit "%s") %d [%s]' % (ind, x[1], x[2], '; '.join(x[3]))
        c = classes[x[1]]
        ch = list(kids.get(x[2], []))
        # the constants, in the order of the references
        at = 0
        for l in lines[c.line + 4:c.end]:
            m = re.match(r'    (\w+) = (.*)$', l)
            if not m or m.group(1) == '__tag__': break
            k = [j for j, y in enumerate(ch) if y[1] == m.group(2)]
            if k: at = k[0] + 1
            else: ch.insert(at, ('const', m.group(1), m.group(2))); at += 1
        s = '%sNStruct (the_struct "%s" "%s" "%s" %d %s r_%s) [' % (ind, x[2].rpartition('.')[2], x[1], x[2], ids[x[1]], 'true' if c.new is None else 'false', x[1])
        return s + (('\n' + ';\n'.join(node(k, ind + '  ') for k in ch)) if ch else '') + ']'
    w('Definition %s_nodes : list mnode := [\n%s].' % (fn, ';\n'.join(node(x, '  ') for x in kids[''])))
    g = lambda r: [m.group(1) for l in lines for m in [re.match(r, l)] if m][0]
    w('Definition %s_header : header := mkheader (lit "%s") %d (lit "%s") (lit "%s") false true None.' % (
        fn, g(r'# generated on (.*)$'), int(g(r'__capnpy_id__ = 0x([0-9a-f]+)$'), 16), g(r"__capnpy_version__ = '(.*)'$"), g(r"__capnproto_version__ = '(.*)'$")))
    w('Definition %s_classes : list (string * table) := [%s].' % (fn, '; '.join('("%s", t_%s_names)' % (n, n) for n in classes)))
    # the text
    parts = []; cur = []; pos = 0
    for c in classes.values():
        ri = lines.index('    def shortrepr(self):', c.line)
        rj = lines.index('        return "(%s)" % ", ".join(parts)', ri)
        k = c.line
        while not (lines[k].startswith('    def is_') or lines[k] == '    @property' or lines[k] == '    @staticmethod'): k += 1
        assert k <= ri
        parts.append('[%s]' % ';\n'.join(coqstr(x) for x in lines[pos:k])); parts.append('t_' + c.name); parts.append('snd r_' + c.name)
        pos = rj + 1
    parts.append('[%s]' % ';\n'.join(coqstr(x) for x in lines[pos:]))
    w('(** %s.py *)\nDefinition %s_py : list string :=\n%s.\n' % (fn, fn, ' ++\n'.join(parts)))

out = []
out.append('''(** The text of capnpy/schema.py and capnpy/annotate.py, word for word, and the
    nodes declared in them. Written by tools/gen_schemamodule.py. *)
From Verif Require Import Base Case Loader Ctor GenText SchemaText SchemaRepr ModuleText ReprText ReprTextSamples.
From Coq Require Import String.
From Coq Require Import Lists.List.
Local Open Scope string_scope.
Local Open Scope list_scope.
Local Open Scope Z_scope.

Definition the_struct (short name dotname : string) (id : Z) (group : bool) (r : struct_node * list string * list string) : struct_decl :=
  match r with (sn, caps, _) => mksd (lit short) (lit name) (lit dotname) id group sn (nfields (sn_fields sn) caps) None end.
''')
for fn in ('schema', 'annotate'): module(fn, out.append)
open('/verif/rocq/theories/SchemaModule.v', 'w').write('\n'.join(out))
