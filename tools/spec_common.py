"""Shared by gen_spec.py: reading the XML specifications and the vocabulary of rocq/theories/SpecModel.v."""
import re, struct, xml.parsers.expat

REPO = '/repo'

class Elem:
    def __init__(self, tag, attrs, line):
        self.tag, self.attrs, self.line, self.end, self.children = tag, attrs, line, line, []
    def get(self, k): return self.attrs.get(k, '')

def load_xml(name):
    p = xml.parsers.expat.ParserCreate()
    root, stack = [], []
    def start(tag, attrs):
        e = Elem(tag.split('}')[-1], attrs, p.CurrentLineNumber)
        (stack[-1].children if stack else root).append(e)
        stack.append(e)
    def end(tag):
        stack.pop().end = p.CurrentLineNumber
    p.StartElementHandler, p.EndElementHandler = start, end
    p.Parse(open(f'{REPO}/spec/{name}.xml', 'rb').read(), True)
    return root[0]

def load_enums():
    """name -> ([discriminants], {variant: discriminant}, first line, last line) of src/enums.rs"""
    out = {}
    lines = open(f'{REPO}/src/enums.rs').read().split('\n')
    i = 0
    while i < len(lines):
        m = re.match(r'pub enum (\w+)( \{)?$', lines[i])
        if m:
            start, nxt, vs = i + 1, 0, {}
            i += 1 if m.group(2) else 2
            while lines[i] != '}':
                l = lines[i].split('//')[0].strip()
                i += 1
                if not l or l.startswith('#'): continue
                q = re.fullmatch(r'(\w+)(?: = (-?\d+|0x[0-9A-Fa-f]+))?,', l)
                assert q, l
                if q.group(2): nxt = int(q.group(2), 0)
                vs[q.group(1)] = nxt
                nxt += 1
            out[m.group(1)] = (list(vs.values()), vs, start, i + 1)
        i += 1
    return out
ENUMS = load_enums()

def expected(code):
    """src/expected_type.rs:18-59"""
    R = [(0, 9, 'Str'), (10, 39, 'Double'), (40, 59, 'Double'), (60, 79, 'Short'), (90, 99, 'Integer'), (100, 102, 'Str'),
         (105, 105, 'Str'), (110, 119, 'Double'), (120, 129, 'Double'), (130, 139, 'Double'), (140, 149, 'Double'),
         (160, 169, 'Long'), (170, 179, 'Short'), (210, 239, 'Double'), (270, 279, 'Short'), (280, 289, 'Short'),
         (290, 299, 'Boolean'), (300, 309, 'Str'), (310, 319, 'Binary'), (320, 329, 'Str'), (330, 369, 'Str'),
         (370, 379, 'Short'), (380, 389, 'Short'), (390, 399, 'Str'), (400, 409, 'Short'), (410, 419, 'Str'),
         (420, 429, 'Integer'), (430, 439, 'Str'), (440, 449, 'Integer'), (450, 459, 'Integer'), (460, 469, 'Double'),
         (470, 479, 'Str'), (480, 481, 'Str'), (999, 999, 'Str'), (1000, 1009, 'Str'),
         (1010, 1059, 'Double'), (1060, 1070, 'Short'), (1071, 1071, 'Integer')]
    for a, b, t in R:
        if a <= code <= b: return t
    raise Exception(f'code {code}')

def f64(x): return '(FF64 %d)' % struct.unpack('<Q', struct.pack('<d', float(x)))[0]
def cstr(s): return '"' + s.replace('"', '""') + '"'
def fstr(s): return f'(FStr (str {cstr(s)}))'
def z(n): return str(n) if n >= 0 else f'({n})'
def fint(n): return f'(FInt {z(n)})'
def opt(v): return f'(Some {v})' if v else 'None'
def lst(l, ind=None):
    if ind is None: return '[' + '; '.join(l) + ']'
    return '[' + (';\n' + ' ' * ind).join(l) + ']'

I16 = '(KInt (-32768) 32767)'
I32 = '(KInt (-2147483648) 2147483647)'

def codes_of(e):
    o = e.get('CodeOverrides')
    return [int(c) for c in o.split(',')] if o else [int(e.get('Code'))]

def enum_conv(rc):
    m = re.fullmatch(r'enum_from_number!\((\w+), ?(\w+), ?from_i(16|32), ?\{\}\)', rc)
    return m.groups() if m else None

def kind(t, code=None):
    if t in ENUMS: return f'(KEnum e_{t})'
    return {'bool': 'KBool', 'i16': I16, 'i32': I32, 'u32': 'KU32', 'f64': 'KF64', 'String': 'KStr', 'Handle': 'KHandle', 'Vec<u8>': 'KBin',
            'Color': I16, 'LineWeight': I16, 'ViewMode': I32, 'char': '(KInt 0 255)', 'DateTime<Local>': 'KF64',
            'usize': '(KInt 0 18446744073709551615)', 'u8': '(KInt 0 255)'}[t]

def rconv(e, code):
    et = expected(code)
    base = {'Str': 'RStr', 'Short': 'RI16', 'Integer': 'RI32', 'Long': 'RI64', 'Double': 'RF64', 'Boolean': 'RBool', 'Binary': 'RBin'}[et]
    if e.tag == 'Pointer': return 'RHandle'
    ro = e.get('ReaderOverride')
    if ro:
        assert ro == 'pair.as_handle()?', ro
        return 'RHandle'
    rc = e.get('ReadConverter') or '{}'
    if rc == '{}': return base
    en = enum_conv(rc)
    if en:
        n, d, w = en
        assert (w, et) in (('16', 'Short'), ('32', 'Integer')), (rc, code)
        return f'(REnum{w} e_{n} {z(ENUMS[n][1][d])})'
    T = {('Color::from_raw_value({})', 'Short'): 'RI16', ('LineWeight::from_raw_value({})', 'Short'): 'RI16',
         ('ViewMode::from_i16({})', 'Short'): 'RI16', ('i32::from({})', 'Short'): 'RI16', ('as_bool({})', 'Short'): 'RAsBool',
         ('!as_bool({})', 'Short'): 'RNotBool', ('{} as i32', 'Short'): 'RI16', ('{} as i32', 'Integer'): 'RI32',
         ('{} as i32', 'Double'): 'RI32ofF64', ('{} as u32', 'Integer'): 'RU32', ('f64::from({})', 'Integer'): 'RF64ofI32',
         ('f64::from({})', 'Short'): 'RF64ofI16', ('{} as u8 as char', 'Short'): 'RU8', ('as_datetime_local({})', 'Double'): 'RF64'}
    return T[(rc, et)]

def wconv(e, code, typ=None):
    et = expected(code)
    if e.tag == 'Pointer': return 'WHandle'
    typ = typ or e.get('Type')
    wc = e.get('WriteConverter') or '{}'
    base = {'Str': 'WStr', 'Short': 'WI16', 'Integer': 'WI32', 'Long': 'WI64', 'Double': 'WF64', 'Boolean': 'WBool', 'Binary': 'WBin'}[et]
    if wc == '{}' and typ == 'Handle' and et == 'Str': return 'WHandle'
    if wc in ('{}', '&{}'):
        ok = {'Str': ['String'], 'Short': ['i16'], 'Integer': ['i32'], 'Long': ['i64'], 'Double': ['f64', 'Point', 'Vector'], 'Boolean': ['bool'],
              'Binary': ['Vec<u8>']}[et]
        assert typ in ok, (e.attrs, typ, et)
        return base
    if wc in ('Color::raw_value(&{})', '{}.raw_value()', 'LineWeight::raw_value(&{})', '{}.raw() as i16', '{} as i16'):
        assert et == 'Short' and (typ in ('i16', 'i32', 'u32', 'Color', 'LineWeight', 'ViewMode', 'char', 'usize', 'u8') or typ in ENUMS), (e.attrs, et)
        return 'WI16'
    if wc == '{} as i32':
        assert et == 'Integer'
        return 'WI32ofF64' if typ == 'f64' else 'WI32'
    if wc == 'as_i16({})' and et == 'Short' and typ == 'bool': return 'WAsI16'
    if wc == 'as_i16(!{})' and et == 'Short' and typ == 'bool': return 'WNotI16'
    if wc == 'f64::from({})' and et == 'Double' and typ in ('i32', 'i16'): return 'WF64ofInt'
    if wc == 'as_double_local({})' and et == 'Double': return 'WF64'
    if wc == '&{}.as_string()' and et == 'Str' and typ == 'Handle': return 'WHandle'
    raise Exception(f'{e.attrs}')

def vec3(d):
    m = re.fullmatch(r'(?:Point|Vector)::new\(([-\d.]+), ?([-\d.]+), ?([-\d.]+)\)', d)
    if m: return [float(x) for x in m.groups()]
    return {'Point::origin()': [0, 0, 0], 'Vector::zero()': [0, 0, 0], 'Vector::x_axis()': [1, 0, 0], 'Vector::y_axis()': [0, 1, 0],
            'Vector::z_axis()': [0, 0, 1]}[d]

def default(t, d):
    """a single default value as fval (not points)"""
    if d == 'vec![]': return '(FBin [])' if t == 'Vec<u8>' else '(FList [])'
    if t == 'bool': return {'true': '(FBool true)', 'false': '(FBool false)'}[d]
    if t == 'f64':
        if d == '::std::f64::consts::PI * 2.0': return f64(6.283185307179586)
        return f64(d.replace('_', ''))
    if t == 'String':
        if d == 'String::new()': return '(FStr [])'
        m = re.fullmatch(r'String::from\("(.*)"\)', d)
        return fstr(m.group(1))
    if t in ENUMS:
        n, v = d.split('::')
        assert n == t
        return fint(ENUMS[t][1][v])
    if t == 'Handle': return {'Handle::empty()': '(FHandle 0)', 'Handle(0)': '(FHandle 0)'}[d]
    if t == 'Color':
        if d == 'Color::by_block()': return fint(0)
        if d == 'Color::by_layer()': return fint(256)
        return fint(int(re.fullmatch(r'Color::from_(?:raw_value|index)\((\d+)\)', d).group(1)))
    if t == 'LineWeight': return {'LineWeight::default()': fint(0), 'LineWeight::standard()': fint(-3)}[d]
    if t == 'ViewMode': return {'ViewMode::default()': fint(0)}[d]
    if t == 'char': return fint(ord(re.fullmatch(r"'(.)'", d).group(1)))
    if t in ('i16', 'i32', 'u32', 'usize', 'u8'):
        m = re.fullmatch(r"'(.)' as i32", d)
        return fint(ord(m.group(1)) if m else int(d))
    if t == 'DateTime<Local>': return f64(0)
    raise Exception((t, d))

class Item:
    """one item type: the data of SpecModel.spec and SpecSpec.field"""
    def __init__(self, name, typestr, cite):
        self.name, self.typestr, self.cite = name, typestr, cite
        self.min = self.max = None
        self.defaults, self.arms, self.cmds, self.fields = {}, [], [], {}
        self.regs, self.eof, self.finals, self.created = [], 'false', [], []
    def dflt(self, slot, v): self.defaults.setdefault(slot, v)
    def arm(self, code, action, guards=()): self.arms.append(f'mk_arm {z(code)} {lst(list(guards))} {lst(action if isinstance(action, list) else [action])}')
    def field(self, slot, kind, public=True, codes=(), win=None, comps=()):
        f = self.fields.setdefault(slot, dict(kind=kind, public=public, codes=[], wins=[], comps=list(comps)))
        for c in codes:
            if c not in f['codes']: f['codes'].append(c)
        if win is not None and win not in f['wins']: f['wins'].append(win)
    def emit(self, ident, share=None):
        """share: (name, Item) whose defaults, arms, commands and fields are definitions of their own; arms and fields come last, commands first"""
        pre = post = fpost = dpost = ''
        dfl, arms, cmds, fields = self.defaults, self.arms, self.cmds, self.fields
        if share:
            n, c = share
            dfl = {k: v for k, v in dfl.items() if k not in c.defaults}
            assert arms[len(arms) - len(c.arms):] == c.arms and cmds[:len(c.cmds)] == c.cmds
            arms, cmds = arms[:len(arms) - len(c.arms)], cmds[len(c.cmds):]
            pre, post, dpost = f'{n}_cmds ++ ', f' ++ {n}_arms', f' ++ {n}_defaults'
            if all(fields.get(k) == v for k, v in c.fields.items()):
                fields = {k: v for k, v in fields.items() if k not in c.fields}
                fpost = f' ++ {n}_fields'
        def par(x): return f'({x})' if '++' in x else x
        o = [f'(** {self.cite} *)']
        sp = (f'  (mk_spec {cstr(self.name)} (str {cstr(self.typestr)}) {opt(self.min)} {opt(self.max)}\n'
              f'    {par(self.l_defaults(dfl) + dpost)}\n'
              f'    {par(lst(arms, 5) + post)}\n'
              f'    {lst([z(r) for r in self.regs])} {self.eof} {lst(self.finals)} {lst([f"({n}%nat, {z(v)})" for n, v in self.created])}\n'
              f'    {par(pre + lst(cmds, 5))})')
        o.append(f'Definition {ident} : itype := mk_itype\n{sp}\n  {par(self.l_fields(fields) + fpost)}.')
        return '\n'.join(o)
    def l_defaults(self, d): return lst([f"({cstr(s)}, {v})" for s, v in d.items()], 5)
    def l_fields(self, fields):
        return lst([f'mk_field {cstr(s)} {f["kind"]} {"true" if f["public"] else "false"} {lst([z(c) for c in f["codes"]])} {lst(f["wins"])} {lst(f["comps"])}'
                    for s, f in fields.items()], 3)
    def emit_shared(self, n):
        return (f'(** {self.cite} *)\nDefinition {n}_defaults : list (string * fval) :=\n    {self.l_defaults(self.defaults)}.\n'
                f'Definition {n}_arms : list arm :=\n    {lst(self.arms, 5)}.\n'
                f'Definition {n}_cmds : list cmd :=\n    {lst(self.cmds, 5)}.\n'
                f'Definition {n}_fields : list field :=\n  {self.l_fields(self.fields)}.')

def win(mn, mx, handles=False, when=None):
    return f'mk_win {opt(mn)} {opt(mx)} {"true" if handles else "false"} {f"(Some {cstr(when)})" if when else "None"}'
def static_conds(mn, mx):
    return ([f'CMin {mn}'] if mn else []) + ([f'CMax {mx}'] if mx else [])
XYZ = ['x', 'y', 'z']
def snake(n): return re.sub(r'(?<=[a-z])(?=[A-Z])', '_', n).lower()

HEADER = '''(** Generated by tools/gen_spec.py from {src}; do not edit. {what} *)
From Verif Require Import Base VersionModel SpecModel SpecSpec{imports}.
Open Scope Z_scope.
Local Open Scope string_scope.
'''
