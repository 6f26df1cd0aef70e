"""Reads /repo/capnpy/schema.py and annotate.py as text and writes
rocq/theories/SchemaPy.v: for each class the layout that its getters show, and
the text of its constructor."""
import re, sys
from collections import OrderedDict

SIZES = {'b': 1, 'B': 1, 'h': 2, 'H': 2, 'i': 4, 'I': 4, 'q': 8, 'Q': 8, 'f': 4, 'd': 8}

class Cls: pass

def parse(path):
    lines = open(path).read().split('\n')
    classes = OrderedDict()
    i = 0
    while i < len(lines):
        m = re.match(r'@(\w+)\.__extend__$', lines[i])
        if m and re.match(r'class %s\(_Struct\):' % m.group(1), lines[i+1]):
            c = Cls(); c.name = m.group(1); c.line = i + 2; c.tag = None; c.props = []; c.new = None; c.params = []; c.tuples = {}
            c.path = path
            j = i + 2
            while j < len(lines) and (lines[j].strip() == '' or lines[j].startswith('    ')):
                l = lines[j]
                m = re.match(r'    __static_(data|ptrs)_size__ = (\d+)', l)
                if m: setattr(c, m.group(1), int(m.group(2)))
                m = re.match(r'    __tag_offset__ = (\d+)', l)
                if m: c.tag = int(m.group(1))
                if l == '    @property':
                    name = re.match(r'    def (\w+)\(self\):', lines[j+1]).group(1)
                    body = []
                    k = j + 2
                    while lines[k].startswith('        '):
                        body.append(lines[k].strip()); k += 1
                    c.props.append((name, body, j + 2))
                m = re.match(r'    def __new\((.*)\):', l)
                if m:
                    c.params = m.group(1)
                    body = []
                    k = j + 1
                    while lines[k].startswith('        '):
                        body.append(lines[k][8:]); k += 1
                    c.new = body; c.newline = j + 1
                j += 1
            c.end = j
            classes[c.name] = c
            i = j
        else:
            i += 1
    return classes

def val(s):
    return {'False': 0, 'True': 1}.get(s, None) if s in ('False', 'True') else int(s)

def fields(c, classes, item):
    out = []
    for n, (name, body, line) in enumerate(c.props):
        out.append(field(c, name, n, body, line, classes, item))
    return out

def field(c, name, order, body, line, classes, item):
    if body[0] == '# no union check': disc = 'None'
    else:
        disc = '(Some %s)' % re.match(r'self._ensure_union\((\d+)\)', body[0]).group(1)
    rest = body[1:]
    t = ' '.join(rest)
    def slot(ty, off, d):
        return 'FSlot "%s" %d %s %s %d %s %s' % (name, order, disc, ty, off, 'true' if d or (c.new and any(x.strip().startswith(name + ' ^= ') for x in c.new)) else 'false', d)
    if t == 'return None': return slot('TVoid', 0, 0)
    m = re.match(r"value = self._read_primitive\((\d+), ord\(b'(.)'\)\)(?: if (\S+) != 0: value = value \^ (\S+))? return value$", t)
    if m:
        off, f = int(m.group(1)), m.group(2); d = float(m.group(3) or 0)
        assert m.group(3) == m.group(4) and d == int(d); d = int(d)
        assert off % SIZES[f] == 0
        ty = {'f': 'TFloat32', 'd': 'TFloat64'}.get(f, '(TPrim F%s)' % f)
        return slot(ty, off // SIZES[f], d)
    m = re.match(r"value = self._read_bit\((\d+), (\d+)\) if (\S+) != 0: value = value \^ (\S+) return value$", t)
    if m:
        mask = int(m.group(2)); b = mask.bit_length() - 1; assert mask == 1 << b and b < 8
        return slot('TBool', 8 * int(m.group(1)) + b, val(m.group(3)))
    m = re.match(r"value = self._read_int16\((\d+)\) if (\S+) != 0: value = \(value \^ (\S+)\) return (\w+)._new\(value\)$", t)
    if m: return slot('TEnum', int(m.group(1)) // 2, int(m.group(2)))
    m = re.match(r"return self._read_text_bytes\((\d+)\)$", t)
    if m: return slot('TText', int(m.group(1)) // 8, 0)
    m = re.match(r"return self._read_data\((\d+)\)$", t)
    if m: return slot('TData', int(m.group(1)) // 8, 0)
    m = re.match(r"return self._read_list\((\d+), (\w+)\)$", t)
    if m: return slot('(TList %s)' % item(m.group(2)), int(m.group(1)) // 8, 0)
    m = re.match(r"offset = (\d+) p = self._read_fast_ptr\(offset\) if _ptr.kind\(p\) == _ptr.FAR: offset, p = self._read_far_ptr\(offset\) else: offset \+= self._ptrs_offset if p == 0: return None obj = (\w+).__new__\(\2\) obj._init_from_pointer\(self._seg, offset, p\) return obj$", t)
    if m: return slot('TStruct', int(m.group(1)) // 8, 0)
    m = re.match(r"if not self.has_%s\(\): return None return _AnyPointer\(self, (\d+)\)$" % name, t)
    if m: return slot('TAny', int(m.group(1)) // 8, 0)
    m = re.match(r"obj = (\w+).__new__\(\1\) _Struct._init_from_buffer\(obj, self._seg, self._data_offset, self._data_size, self._ptrs_size\) return obj$", t)
    if m:
        g = classes[m.group(1)]
        u = 'None' if g.tag is None else '(Some %d)' % (g.tag // 2)
        return 'FGroup "%s" %d %s false %s\n      [%s]' % (name, order, disc, u, ';\n       '.join(fields(g, classes, item)))
    raise ValueError((c.name, name, t))

def coqstr(s):
    return '"' + s.replace('"', '""') + '"'

def main():
    out = []
    w = out.append
    w('''(** The classes of capnpy/schema.py and capnpy/annotate.py, which were generated
    by the compiler itself (all the others come from the user's schemas).
    Written by tools/gen_schemapy.py, which reads the text of the two files:
    the layout of each class is taken from its getters, [.._new] is the text
    of its static method __new, line by line, without the names that the
    model does not have: the classes given to copy_from_struct and the names
    given to _check_tag are replaced by _, the item types by their sizes, the text in
    NotImplementedError by _. codeOrder is not in the text:
    it is the position here; hadExplicitDefault with a default of 0 is seen in
    __new only. *)
From Verif Require Import Base List Ctor.
From Coq Require Import String.
From Coq Require Import Lists.List.
Local Open Scope string_scope.
Local Open Scope list_scope.
Local Open Scope Z_scope.

''')
    allc = []
    for fn in ('schema', 'annotate'):
        path = '/repo/capnpy/%s.py' % fn
        classes = parse(path)
        def item(n):
            m = re.match(r'_(\w+)_list_item_type$', n)
            c = classes.get(m.group(1))
            if c: return '(ITStruct %d %d)' % (c.data, c.ptrs)
            raise ValueError(n)
        for c in classes.values():
            u = 'None' if c.tag is None else '(Some %d)' % (c.tag // 2)
            if c.new is None: continue       # a group
            fs = fields(c, classes, item)
            nm = 'c_' + c.name
            w('(** %s.py:%d-%d *)' % (fn, c.line, c.end))
            w('Definition %s : struct_node := mksn %d %d %s\n  [%s].' % (nm, c.data, c.ptrs, u, ';\n   '.join(fs)))
            w('(** %s.py:%d-%d *)' % (fn, c.newline, c.newline + len(c.new)))
            def norm(x):
                x = re.sub(r"(copy_from_struct\(pos \+ \d+), \w+,", r"\1, _,", x)
                x = re.sub(r"(copy_from_list\(pos \+ \d+), (\w+),", lambda m: '%s, %s,' % (m.group(1), item(m.group(2))), x)
                x = re.sub(r"raise NotImplementedError\(.*\)", "raise NotImplementedError(_)", x)
                return re.sub(r"(_check_tag\(\w+), '\w+'\)", r"\1, _)", x)
            c.new = [norm(x) for x in c.new]
            w('Definition %s_new : list string := [\n  %s;\n  %s].\n' % (nm, coqstr('def __new(%s):' % c.params), ';\n  '.join(coqstr(x) for x in c.new)))
            allc.append(nm)
    w('Definition classes : list (struct_node * list string) :=\n  [%s].' % ';\n   '.join('(%s, %s_new)' % (x, x) for x in allc))
    open('/verif/rocq/theories/SchemaPy.v', 'w').write('\n'.join(out) + '\n')
    print(len(allc), 'classes')
if __name__ == "__main__": main()
