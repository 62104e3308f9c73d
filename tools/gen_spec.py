#!/usr/bin/env python3
"""Produce the data files of rocq/theories from /repo/spec/*.xml, following build/*_generator.rs.

Converters, conditions and defaults that are not known to this script make it fail."""
import os, sys
sys.path.insert(0, os.path.dirname(os.path.abspath(__file__)))
from spec_common import *

OUT = os.path.join(os.path.dirname(os.path.abspath(__file__)), '..', 'rocq', 'theories')
def write(name, text):
    path = os.path.join(OUT, name)
    if not os.path.exists(path) or open(path).read() != text:
        open(path, 'w').write(text)

def gen_enums(used):
    o = [HEADER.format(src='src/enums.rs', what='The discriminants of the enumerations used by the specifications.', imports='').replace(
        'From Verif Require Import Base VersionModel SpecModel SpecSpec.', 'From Verif Require Import Base.').replace('Local Open Scope string_scope.\n', '')]
    for n in sorted(used):
        vals, _, a, b = ENUMS[n]
        o.append(f'(** src/enums.rs:{a}-{b} *)\nDefinition e_{n} : list Z := {lst([z(v) for v in vals])}.')
    write('EnumData.v', '\n'.join(o) + '\n')

# ---------------------------------------------------------------- tables
def conds_of(e, item, prefix):
    """WriteCondition of a table field, for its slot(s)"""
    wc = e.get('WriteCondition')
    if not wc: return [], None
    m = re.fullmatch(r'item\.(\w+)', wc)
    if m: return [f'CTrue {cstr(m.group(1))}'], m.group(1)
    m = re.fullmatch(r'item\.(\w+)(\.raw_value\(\))? != (.+)', wc)
    assert m and m.group(1) == e.get('Name'), wc
    v = m.group(3)
    v = fstr(v[1:-1]) if v[0] == '"' else fint(int(v))
    return [f'CNe [({cstr(m.group(1))}, {v})]'], None

def gen_tables():
    root = load_xml('TableSpec')
    items, idents = [], []
    for tb in root.children:
        ti, = [c for c in tb.children if c.tag == 'TableItem']
        it = Item(ti.get('Name'), tb.get('TypeString'),
                  f'spec/TableSpec.xml:{tb.line}-{tb.end}; reader build/table_generator.rs:180-331, writer build/table_generator.rs:333-516.')
        it.min = tb.get('MinVersion') or None
        it.eof = 'false'
        # struct and Default: build/table_generator.rs:60-128
        it.dflt('name', '(FStr [])'); it.dflt('handle', '(FHandle 0)'); it.dflt('__owner_handle', '(FHandle 0)')
        it.dflt('extension_data_groups', '(FList [])'); it.dflt('x_data', '(FList [])')
        it.field('name', 'KStr', codes=[2], win=win(None, None))
        it.field('handle', 'KHandle', codes=[5], win=win(None, None, handles=True))
        it.field('__owner_handle', 'KHandle', codes=[330], win=win('R13', None))
        it.field('extension_data_groups', '(KList KExt)', codes=[102], win=win('R14', None))
        it.field('x_data', '(KList KXd)', codes=[1001], win=win('R2000', None))
        it.arm(2, 'ASet "name" RStr'); it.arm(5, 'ASet "handle" RHandle'); it.arm(102, 'AExt "extension_data_groups"')
        it.arm(1001, 'AXdata "x_data"'); it.arm(330, 'ASet "__owner_handle" RHandle')
        it.cmds += ['WPair [CHandles] 5 "handle" WHandle', 'WExts [CMin R14] "extension_data_groups"',
                    'WConst [] (mk_pair 100 (VStr (str "AcDbSymbolTableRecord")))',
                    f'WConst [] (mk_pair 100 (VStr (str {cstr(ti.get("ClassName"))})))',
                    'WPair [] 2 "name" WStr', 'WConst [] (mk_pair 70 (VShort 0))']
        for f in ti.children:
            assert f.tag in ('Field', 'Pointer'), f.tag
            ptr = f.tag == 'Pointer'
            slot = f'__{f.get("Name")}_handle' if ptr else f.get('Name')
            typ = 'Handle' if ptr else f.get('Type')
            multi = f.get('AllowMultiples') == 'true'
            mn, mx = f.get('MinVersion'), f.get('MaxVersion')
            public = ptr or not slot.startswith('_')
            extra, when = conds_of(f, it, 'item')
            w = win(mn, mx, when=when)
            cs = lst(static_conds(mn, mx) + extra)
            assert f.get('DisableWritingDefault') != 'true'
            if f.get('GenerateReader') == 'false':
                assert f.get('GenerateWriter') == 'false' and slot == 'is_layer_on'
                it.dflt(slot, default(typ, f.get('DefaultValue')))
                it.field(slot, 'KBool', codes=[62], win=win(None, None))
                continue
            codes = codes_of(f)
            if typ in ('Point', 'Vector'):
                assert len(codes) in (2, 3) and not multi
                d = vec3(f.get('DefaultValue'))
                for i in range(3):
                    it.dflt(f'{slot}.{XYZ[i]}', f64(d[i]))
                    if i < len(codes):
                        it.field(f'{slot}.{XYZ[i]}', 'KF64', public, [codes[i]], w)
                        it.arm(codes[i], f'ASet "{slot}.{XYZ[i]}" RF64')
                        it.cmds.append(f'WPair {cs} {codes[i]} "{slot}.{XYZ[i]}" WF64')
                    else:
                        it.field(f'{slot}.{XYZ[i]}', 'KF64', public)
                continue
            code, = codes
            if f.get('ReadConverter') == 'read_color_value(&mut item, {})':
                assert f.get('WriteConverter') == '{}.writable_color_value(item)'
                it.dflt(slot, default(typ, f.get('DefaultValue')))
                it.field(slot, '(KInt 1 32767)', public, [code], w)
                it.arm(code, 'AMulti ["color"; "is_layer_on"] MLayerColor')
                it.cmds.append(f'WMulti {cs} {code} ["color"; "is_layer_on"] MLayerColor')
                continue
            k, r = kind(typ), rconv(f, code)
            if multi:
                it.dflt(slot, '(FList [])')
                it.field(slot, f'(KList {k})', public, [code], w)
                it.arm(code, f'APush {cstr(slot)} {r}')
                wc = 'WHandle' if ptr else {'Str': 'WStr', 'Short': 'WI16', 'Double': 'WF64', 'Binary': 'WBin'}[expected(code)]
                it.cmds.append(f'WEach {cs} {code} {cstr(slot)} {wc}')
            else:
                it.dflt(slot, '(FHandle 0)' if ptr else default(typ, f.get('DefaultValue')))
                it.field(slot, k, public, [code], w)
                it.arm(code, f'ASet {cstr(slot)} {r}')
                it.cmds.append(f'WPair {cs} {code} {cstr(slot)} {wconv(f, code)}')
        it.cmds.append('WXdatas [] "x_data"')
        items.append(it.emit('t_' + snake(it.name))); idents.append('t_' + snake(it.name))
    o = HEADER.format(src='spec/TableSpec.xml', what='The nine symbol tables.', imports=' EnumData')
    write('TableData.v', o + '\n' + '\n\n'.join(items) + '\n\n' +
          f'(** The nine tables, in the order they are written. spec/TableSpec.xml *)\nDefinition tables : list itype := {lst(idents)}.\n')

# ---------------------------------------------------------------- entities and objects: shared parts
def is_ptr(f): return f.tag == 'Pointer'
def name_of(f): return f'__{f.get("Name")}_handle' if is_ptr(f) else f.get('Name')
def type_of(f): return 'Handle' if is_ptr(f) else f.get('Type')
def is_multi(f): return f.get('AllowMultiples') == 'true'
def is_point(f): return type_of(f) in ('Point', 'Vector')

def declare(it, f, pre='', **over):
    """the struct field, its default and the versions that store it"""
    slot, typ, multi = pre + name_of(f), type_of(f), is_multi(f)
    public = is_ptr(f) or not name_of(f).startswith('_')
    w = over.get('win', win(f.get('MinVersion'), f.get('MaxVersion')))
    codes = codes_of(f)
    if multi:
        k = over.get('kind') or f'(KList {kind(typ)})'
        it.dflt(slot, '(FList [])')
        it.field(slot, k, public, over.get('codes', codes), w, over.get('comps', ()))
    elif is_point(f):
        d = vec3(f.get('DefaultValue'))
        for i in range(3):
            it.dflt(f'{slot}.{XYZ[i]}', f64(d[i]))
            if i < len(codes): it.field(f'{slot}.{XYZ[i]}', 'KF64', public, [codes[i]], w)
            else: it.field(f'{slot}.{XYZ[i]}', 'KF64', public)
    else:
        it.dflt(slot, '(FHandle 0)' if is_ptr(f) else default(typ, f.get('DefaultValue')))
        it.field(slot, over.get('kind') or kind(typ), public, over.get('codes', codes), w)

def read_arms(it, f, pre='', guards=(), skip=()):
    """the arms of a field, for the codes not in skip"""
    slot, codes = pre + name_of(f), codes_of(f)
    if is_point(f) and not is_multi(f):
        for c, x in zip(codes, XYZ):
            if c not in skip: it.arm(c, f'ASet "{slot}.{x}" RF64', guards)
        return
    code, = codes
    if code in skip: return
    r = rconv(f, code)
    it.arm(code, f'{"APush" if is_multi(f) else "ASet"} {cstr(slot)} {r}', guards)

BASEW = {'Str': 'WStr', 'Short': 'WI16', 'Integer': 'WI32', 'Double': 'WF64', 'Boolean': 'WBool', 'Binary': 'WBin'}
def write_field(it, f, pre='', extra=(), multi_conv=False):
    slot, codes, typ = pre + name_of(f), codes_of(f), type_of(f)
    cs = static_conds(f.get('MinVersion'), f.get('MaxVersion'))
    if f.get('DisableWritingDefault') == 'true':
        assert not is_multi(f)
        if is_point(f): cs.append(f'CNe {lst([f"({cstr(slot + chr(46) + x)}, {f64(v)})" for x, v in zip(XYZ, vec3(f.get("DefaultValue")))])}')
        else: cs.append(f'CNe [({cstr(slot)}, {default(typ, f.get("DefaultValue"))})]')
    cs = lst(cs + list(extra))
    if is_multi(f):
        code, = codes
        w = 'WHandle' if is_ptr(f) else wconv(f, code) if multi_conv else BASEW[expected(code)]
        if not is_ptr(f) and not multi_conv:
            assert typ in {'WStr': ['String'], 'WI16': ['i16'], 'WI32': ['i32'], 'WF64': ['f64'], 'WBin': ['Vec<u8>']}[w], f.attrs
        it.cmds.append(f'WEach {cs} {code} {cstr(slot)} {w}')
    elif is_point(f):
        for c, x in zip(codes, XYZ): it.cmds.append(f'WPair {cs} {c} "{slot}.{x}" WF64')
    else:
        code, = codes
        it.cmds.append(f'WPair {cs} {code} {cstr(slot)} {wconv(f, code)}')

def wconst(cs, code, val): return f'WConst {lst(cs)} (mk_pair {code} {val})'
def vstr(s): return f'(VStr (str {cstr(s)}))'

# ---------------------------------------------------------------- entities
LWV = {'x': 0, 'y': 1, 'starting_width': 2, 'ending_width': 3, 'bulge': 4, 'id': 5}
POLY3 = {'x': 0, 'y': 1, 'z': 2}
FINALS = {'Image': [(2, '__clipping_vertices', 'clipping_vertices')], 'Leader': [(3, '__vertices', 'vertices')],
          'MLine': [(3, '__vertices', 'vertices'), (3, '__segment_direction', 'segment_directions'), (3, '__miter_direction', 'miter_directions')],
          'Section': [(3, '__vertices', 'vertices'), (3, '__back_line_vertices', 'back_line_vertices')],
          'Spline': [(3, '__control_point', 'control_points'), (3, '__fit_point', 'fit_points')],
          'DgnUnderlay': [(2, '__point', 'points')], 'DwfUnderlay': [(2, '__point', 'points')], 'PdfUnderlay': [(2, '__point', 'points')],
          'Wipeout': [(2, '__clipping_vertices', 'clipping_vertices')]}

def specific_value(it, w, ent, common_pre):
    """WriteSpecificValue of an entity: build/entity_generator.rs:640-690"""
    code, v = int(w.get('Code')), w.get('Value')
    cs = static_conds(w.get('MinVersion'), w.get('MaxVersion'))
    dont, wc = w.get('DontWriteIfValueIs'), w.get('WriteCondition')
    m = re.fullmatch(r'&String::from\("(.*)"\)', v)
    if m:
        assert not dont and not wc and expected(code) == 'Str'
        return wconst(cs, code, vstr(m.group(1)))
    m = re.fullmatch(r'ent\.(\w+)\.len\(\) as (i16|i32|f64)', v)
    if m:
        assert not dont and not wc
        assert {'i16': 'Short', 'i32': 'Integer', 'f64': 'Double'}[m.group(2)] == expected(code)
        return f'WLen {lst(cs)} {code} {cstr(m.group(1))} L{m.group(2).upper()}'
    if v == 'common.elevation':
        assert dont == '0.0' and not wc
        cs.append(f'CNe [("common.elevation", {f64(0)})]')
        return f'WPair {lst(cs)} {code} "common.elevation" WF64'
    if v == 'as_i16(ent.attributes().count() > 0)':
        assert wc == 'ent.attributes().count() > 0' and not cs and not dont
        return wconst([], code, '(VShort 1)') if it.group else None
    raise Exception(v)

def foreach(it, w, ent):
    m = re.fullmatch(r'ent\.(\w+)', w.get('Field'))
    f, = [c for c in ent.children if c.get('Name') == m.group(1) and c.tag == 'Field']
    if len(w.children) == 1 and w.children[0].get('Value') == 'item.clone()':
        b = w.children[0]
        assert set(b.attrs) == {'Code', 'Value'} and type_of(f) == 'Vec<u8>'
        return f'WEach [] {b.get("Code")} {cstr(f.get("Name"))} WBin'
    comps = LWV if type_of(f) == 'LwPolylineVertex' else POLY3
    parts = []
    for b in w.children:
        assert b.tag == 'WriteSpecificValue' and set(b.attrs) <= {'Code', 'Value', 'MinVersion', 'DontWriteIfValueIs'}, b.attrs
        j = comps[re.fullmatch(r'item\.(\w+)', b.get('Value')).group(1)]
        cs = [f'RcMin {b.get("MinVersion")}'] if b.get('MinVersion') else []
        if b.get('DontWriteIfValueIs'):
            assert b.get('DontWriteIfValueIs') == '0.0'
            cs.append(f'RcNe {j} {f64(0)}')
        code = int(b.get('Code'))
        parts.append(f'mk_part {lst(cs)} {code} {j} {BASEW[expected(code)]}')
    return f'WEachRec [] {cstr(f.get("Name"))} {lst(parts)}'

def write_order(it, ent, pre=''):
    fields = [c for c in ent.children if c.tag in ('Field', 'Pointer')]
    wo = [c for c in ent.children if c.tag == 'WriteOrder']
    if not wo:
        if ent.get('SubclassMarker'): it.cmds.append(wconst(['CMin R13'], 100, vstr(ent.get('SubclassMarker'))))
        for f in fields:
            if f.get('GenerateWriter') == 'false': continue
            assert f.tag == 'Field' and not f.get('WriteCondition'), f.attrs
            if f.get('WriteConverter') == 'self.dimension_type()':
                it.cmds.append(f'WMulti [] 70 {lst([cstr(pre + s) for s in DIMWORD])} MDimWord')
            else: write_field(it, f, pre)
        return
    for w in wo[0].children:
        if w.tag == 'WriteExtensionData': it.cmds.append(f'WExts [CMin R14] "{pre}extension_data_groups"')
        elif w.tag == 'WriteField':
            f, = [c for c in fields if c.get('Name') == w.get('Field')]
            assert set(w.attrs) <= {'Field', 'WriteCondition', 'DontWriteIfValueIs'}, w.attrs
            ex = []
            if w.get('WriteCondition'):
                assert w.get('WriteCondition') == 'write_handles'
                ex.append('CHandles')
            if w.get('DontWriteIfValueIs'):
                assert w.get('DontWriteIfValueIs') == 'Handle(0)'
                ex.append(f'CNe [({cstr(pre + name_of(f))}, (FHandle 0))]')
            write_field(it, f, pre, ex)
        elif w.tag == 'WriteSpecificValue':
            c = specific_value(it, w, ent, pre)
            if c: it.cmds.append(c)
        elif w.tag == 'Foreach': it.cmds.append(foreach(it, w, ent))
        else: raise Exception(w.tag)

def common_declare(it, com):
    for f in com.children:
        if f.tag not in ('Field', 'Pointer'): continue
        n = name_of(f)
        if n == 'handle': declare(it, f, 'common.', win=win(None, None, handles=True))
        elif n == 'extension_data_groups': declare(it, f, 'common.', kind='(KList KExt)', win=win('R14', None))
        elif n == 'x_data': declare(it, f, 'common.', kind='(KList KXd)', win=win('R2000', None))
        elif n == '__owner_handle': declare(it, f, 'common.', win=win(None, None, handles=True))
        else: declare(it, f, 'common.')
def common_arms(it, com):
    for f in com.children:
        if f.tag not in ('Field', 'Pointer'): continue
        n = name_of(f)
        if n == 'extension_data_groups': it.arm(102, 'AExt "common.extension_data_groups"')
        elif n != 'x_data': read_arms(it, f, 'common.')
    it.arm(1001, 'AXdata "common.x_data"')

def mt(n, d): return f'(REnum16 e_{n} {z(ENUMS[n][1][d])})'
def att_arms(it, tag, prompt):
    """src/entity.rs:805-1103. Registers: 0 = the last subclass marker is AcDbXrecord, 1 = is_version_set, 2 = xrec_code_70_count"""
    X, N = ['GEq 0 1'], []
    it.regs, it.eof = [0, 0, 0], 'true'
    it.arm(100, 'AMark 0 [(str "AcDbXrecord", 1)] (Some 0)')
    it.arm(1, 'ASet "value" RStr')
    it.arm(2, 'ASet "x_record_tag" RStr', X); it.arm(2, f'ASet "{tag}" RStr')
    if prompt: it.arm(3, 'ASet "prompt" RStr')
    it.arm(7, 'ASet "text_style_name" RStr')
    for c, x in zip((10, 20, 30), XYZ):
        it.arm(c, f'ASet "alignment_point.{x}" RF64', X); it.arm(c, f'ASet "location.{x}" RF64')
    for c, x in zip((11, 21, 31), XYZ): it.arm(c, f'ASet "second_alignment_point.{x}" RF64')
    it.arm(39, 'ASet "thickness" RF64')
    it.arm(40, 'ASet "annotation_scale" RF64', X); it.arm(40, 'ASet "text_height" RF64')
    it.arm(41, 'ASet "relative_x_scale_factor" RF64'); it.arm(50, 'ASet "rotation" RF64'); it.arm(51, 'ASet "oblique_angle" RF64')
    it.arm(70, [f'ASet "m_text_flag" {mt("MTextFlag", "MultilineAttribute")}', 'AIncr 2'], X + ['GEq 2 0'])
    it.arm(70, ['ASet "is_really_locked" RAsBool', 'AIncr 2'], X + ['GEq 2 1'])
    it.arm(70, ['ASet "__secondary_attribute_count" RI16', 'AIncr 2'], X + ['GEq 2 2'])
    it.arm(70, 'AFail', X)
    it.arm(70, 'ASet "flags" RI16')
    it.arm(71, 'ASet "text_generation_flags" RI16')
    it.arm(72, f'ASet "horizontal_text_justification" {mt("HorizontalTextJustification", "Left")}')
    it.arm(73, 'ASet "field_length" RI16')
    it.arm(74, f'ASet "vertical_text_justification" {mt("VerticalTextJustification", "Baseline")}')
    for c, x in zip((210, 220, 230), XYZ): it.arm(c, f'ASet "normal.{x}" RF64')
    it.arm(280, 'ASet "keep_duplicate_records" RAsBool', X)
    it.arm(280, [f'ASet "version" {mt("Version", "R2010")}', 'AReg 1 1'], ['GEq 1 0'])
    it.arm(280, 'ASet "is_locked_in_block" RAsBool')
    it.arm(340, 'APush "__secondary_attributes_handle" RHandle')

def lwpolyline_arms(it):
    """src/entity.rs:1104-1157"""
    it.eof = 'true'
    it.arm(10, f'ANewRec "vertices" {lst([f64(0)] * 5 + [fint(0)])} 0 RF64')
    for c, j, r in ((20, 1, 'RF64'), (40, 2, 'RF64'), (41, 3, 'RF64'), (42, 4, 'RF64'), (91, 5, 'RI32')): it.arm(c, f'ALast "vertices" {j} {r}')
    it.arm(39, 'ASet "thickness" RF64'); it.arm(43, 'ASet "constant_width" RF64'); it.arm(70, 'ASet "flags" RI16')
    for c, x in zip((210, 220, 230), XYZ): it.arm(c, f'ASet "extrusion_direction.{x}" RF64')

def mtext_arms(it):
    """src/entity.rs:1158-1294. Registers: 0 = reading_column_data, 1 = read_column_count"""
    it.eof, it.regs = 'true', [0, 0]
    def pt(n, a):
        for c, x in zip((a, a + 10, a + 20), XYZ): it.arm(c, f'ASet "{n}.{x}" RF64')
    pt('insertion_point', 10)
    it.arm(40, 'ASet "initial_text_height" RF64'); it.arm(41, 'ASet "reference_rectangle_width" RF64')
    it.arm(71, f'ASet "attachment_point" {mt("AttachmentPoint", "TopLeft")}')
    it.arm(72, f'ASet "drawing_direction" {mt("DrawingDirection", "LeftToRight")}')
    it.arm(3, 'APush "extended_text" RStr'); it.arm(1, 'ASet "text" RStr'); it.arm(7, 'ASet "text_style_name" RStr')
    pt('extrusion_direction', 210); pt('x_axis_direction', 11)
    it.arm(42, 'ASet "horizontal_width" RF64'); it.arm(43, 'ASet "vertical_height" RF64')
    it.arm(50, 'APush "column_heights" RF64', ['GEq 0 1', 'GEq 1 1'])
    it.arm(50, ['ASet "column_count" RI32ofF64', 'AReg 1 1'], ['GEq 0 1'])
    it.arm(50, 'ASet "rotation_angle" RF64')
    it.arm(73, f'ASet "line_spacing_style" {mt("MTextLineSpacingStyle", "AtLeast")}')
    it.arm(44, 'ASet "line_spacing_factor" RF64')
    it.arm(90, f'ASet "background_fill_setting" (REnum32 e_BackgroundFillSetting {z(ENUMS["BackgroundFillSetting"][1]["Off"])})')
    it.arm(420, 'ASet "background_color_rgb" RI32'); it.arm(430, 'ASet "background_color_name" RStr')
    it.arm(45, 'ASet "fill_box_scale" RF64'); it.arm(63, 'ASet "background_fill_color" RI16')
    it.arm(441, 'ASet "background_fill_color_transparency" RI32')
    it.arm(75, ['ASet "column_type" RI16', 'AReg 0 1'])
    it.arm(76, 'ASet "column_count" RI16'); it.arm(78, 'ASet "is_column_flow_reversed" RAsBool')
    it.arm(79, 'ASet "is_column_auto_height" RAsBool'); it.arm(48, 'ASet "column_width" RF64'); it.arm(49, 'ASet "column_gutter" RF64')

def polyline_cmds(it, ent):
    """src/entity.rs:1429-1489"""
    it.cmds += [wconst(['CMin R13', 'CMask "flags" 24 true'], 100, vstr('AcDb3dPolyline')),
                wconst(['CMin R13', 'CMask "flags" 24 false'], 100, vstr('AcDb2dPolyline'))]
    for f in ent.children:
        if not name_of(f).startswith('__'): write_field(it, f)

def vertex_cmds(it, ent):
    """src/entity.rs:1490-1536"""
    it.cmds += [wconst([], 100, vstr('AcDbVertex')),
                wconst(['CMin R13', 'CMask "flags" 96 true'], 100, vstr('AcDb3dPolylineVertex')),
                wconst(['CMin R13', 'CMask "flags" 96 false'], 100, vstr('AcDb2dVertex'))]
    for f in ent.children: write_field(it, f)

DIMWORD = ['dimension_type', 'is_block_reference_referenced_by_this_block_only', 'is_ordinate_x_type', 'is_at_user_defined_location']
DIMS = ['RotatedDimension', 'RadialDimension', 'DiameterDimension', 'AngularThreePointDimension', 'OrdinateDimension']
def dimension(it, ent, base, ents):
    """src/entity.rs:236-396 (arms after creation), 421-598 (before), 1342-1428 (writers). Register 0 = the dimension created, 0 for none"""
    B, me = 'dimension_base.', DIMS.index(it.name) + 1
    it.regs, it.created = [0], [(0, me)]
    for f in base.children: declare(it, f, B)
    for i, n in enumerate(DIMS, 1):
        for f in ents[n].children: declare(it, f, '' if i == me else n + '.')
    for n in DIMS:
        if n != it.name:
            for s in [s for s in it.fields if s.startswith(n + '.')]: del it.fields[s]
    g0 = ['GEq 0 0']
    fake = {'attachment_point': ('AttachmentPoint', 'TopLeft'), 'text_line_spacing_style': ('TextLineSpacingStyle', 'AtLeast'), 'version': ('Version', 'R2010')}
    for f in base.children:
        if f.get('Name') in DIMWORD: continue
        if f.get('Name') in fake: it.arm(codes_of(f)[0], f'ASet "{B}{f.get("Name")}" {mt(*fake[f.get("Name")])}', g0)
        else: read_arms(it, f, B, g0)
    it.arm(70, f'AMulti {lst([cstr(B + s) for s in DIMWORD])} MDimWord', g0)
    it.arm(100, 'AMark 0 ' + lst([f'(str {cstr(ents[n].get("SubclassMarker"))}, {i})' for i, n in enumerate(DIMS, 1)]) + ' None', g0)
    for i, n in enumerate(DIMS, 1):
        for f in ents[n].children: read_arms(it, f, '' if i == me else n + '.', [f'GEq 0 {i}'])

def dimension_cmds(it, ent, base):
    write_order(it, base, 'dimension_base.')
    it.cmds.append(wconst(['CMin R13'] if it.name == 'RotatedDimension' else [], 100, vstr(ent.get('SubclassMarker'))))
    for f in ent.children: write_field(it, f)
    if it.name == 'RotatedDimension': it.cmds.append(wconst(['CMin R13'], 100, vstr('AcDbRotatedDimension')))

CUSTOM_READ = {'Attribute': 'src/entity.rs:805-952', 'AttributeDefinition': 'src/entity.rs:953-1103', 'LwPolyline': 'src/entity.rs:1104-1157', 'MText': 'src/entity.rs:1158-1294'}
CUSTOM_WRITE = {'Polyline': 'src/entity.rs:1429-1489', 'Vertex': 'src/entity.rs:1490-1536'}
def gen_entities():
    root = load_xml('EntitiesSpec')
    ents = {e.get('Name'): e for e in root.children}
    com, base = ents['Entity'], ents['DimensionBase']
    out, idents = [], []
    def one(e, group=False):
        n = e.get('Name')
        if n in DIMS: how = 'reader src/entity.rs:236-396 and 421-598, writer src/entity.rs:1342-1428'
        else: how = (f'reader {CUSTOM_READ.get(n, "build/entity_generator.rs:452-535")}, writer {CUSTOM_WRITE.get(n, "build/entity_generator.rs:601-881")}')
        note = ''
        if n in ('Attribute', 'AttributeDefinition'): note = ' The multi-line text is an entity of its own; it is written before the x-data (src/entity.rs:1544-1555), so the item ends before them.'
        if n == 'Polyline': note = ' The vertices and the end are written before the x-data (src/entity.rs:1570-1592), so the item ends before them.'
        if n == 'Insert': note = (' With attributes: they and the end are written before the x-data (src/entity.rs:1556-1569), so the item ends before them.' if group
                                  else ' Without attributes.')
        it = Item(n, e.get('TypeString').split(',')[0], f'spec/EntitiesSpec.xml:{e.line}-{e.end}, common fields 7-50; {how}.{note}')
        it.group = group
        it.min, it.max = e.get('MinVersion') or None, e.get('MaxVersion') or None
        if n in DIMS: dimension(it, e, base, ents)
        for f in e.children:
            if f.tag not in ('Field', 'Pointer') or n in DIMS: continue
            nm, typ = name_of(f), type_of(f)
            if nm in ('__seqend_handle', '__attributes_and_handles', '__vertices_and_handles', 'm_text'): continue
            comb = [k for k in FINALS.get(n, []) if k[2] == nm]
            if comb:
                k = f'(KList (KRec {lst(["KF64"] * 3 if comb[0][0] == 3 else ["KF64", "KF64", f"KConst {f64(0)}"])}))'
                declare(it, f, kind=k)
            elif typ == 'LwPolylineVertex': declare(it, f, kind=f'(KList (KRec [KF64; KF64; KF64; KF64; KF64; {I32}]))', comps=[f'(5%nat, R2013, {fint(0)})'])
            elif n == 'Vertex' and nm.startswith('polyface_mesh_vertex_index'): declare(it, f, win=win('R12', None))
            else: declare(it, f)
        common_declare(it, com)
        if n == 'LwPolyline': it.field('common.elevation', 'KF64', True, [38], win(None, None))
        # reader
        if n == 'Attribute': att_arms(it, 'attribute_tag', False)
        elif n == 'AttributeDefinition': att_arms(it, 'text_tag', True)
        elif n == 'LwPolyline': lwpolyline_arms(it)
        elif n == 'MText': mtext_arms(it)
        elif n not in DIMS:
            seen = []
            for f in e.children:
                if f.tag not in ('Field', 'Pointer') or f.get('GenerateReader') == 'false': continue
                if f.tag == 'Pointer': read_arms(it, f); continue
                cs = codes_of(f)
                read_arms(it, f, skip=list(seen))
                seen += cs
            it.finals = [f'PCombine {lst([cstr(f"{p}_{x}") for x in XYZ[:k]])} {cstr(s)}' for k, p, s in FINALS.get(n, [])]
        common_arms(it, com)
        # writer
        write_order(it, com, 'common.')
        if n == 'Polyline': polyline_cmds(it, e)
        elif n == 'Vertex':
            for f in e.children:
                if f.get('Name').startswith('polyface'): f.attrs['MinVersion'] = 'R12'
            vertex_cmds(it, e)
        elif n in DIMS: dimension_cmds(it, e, base)
        else: write_order(it, e)
        if n not in ('Attribute', 'AttributeDefinition', 'Polyline') and not group: it.cmds.append('WXdatas [] "common.x_data"')
        ident = 'e_' + ('insert_group' if group else snake(n))
        ident = 'ent_' + ident[2:]
        if group: it.name = 'InsertWithAttributes'
        out.append(it.emit(ident, ('common', sh))); idents.append(ident)
    sh = Item('Entity', '', 'The fields common to all entities. spec/EntitiesSpec.xml:7-50; reader build/entity_generator.rs:158-199, writer build/entity_generator.rs:201-209 and 601-881.')
    common_declare(sh, com); common_arms(sh, com); write_order(sh, com, 'common.')
    out.append(sh.emit_shared('common'))
    for e in root.children:
        if e.get('Name') in ('Entity', 'DimensionBase'): continue
        one(e)
        if e.get('Name') == 'Insert': one(e, True)
    o = HEADER.format(src='spec/EntitiesSpec.xml', what='The entities; the readers and writers of src/entity.rs that are not generated are transcribed by hand in the script.', imports=' EnumData')
    write('EntityData.v', o + '\n' + '\n\n'.join(out) + '\n\n' +
          f'(** All entity types, in the order of the specification. spec/EntitiesSpec.xml *)\nDefinition entities : list itype :=\n  {lst(idents, 3)}.\n')

# ---------------------------------------------------------------- objects
IDENTITY = [1, 0, 0, 0, 0, 1, 0, 0, 0, 0, 1, 0, 0, 0, 0, 1]
MESH = {'source.x': 0, 'source.y': 1, 'destination.x': 2, 'destination.y': 3}
ELEM = {'offset': 0, 'color.raw_value()': 1, 'line_type': 2}
# read or written by functions that the vocabulary of SpecModel.v cannot express: see CustomModel.v
BY_HAND = ['DataTable', 'Dictionary', 'DictionaryWithDefault', 'SectionSettings', 'SpatialFilter', 'SunStudy', 'TableStyle', 'XRecordObject']

def obj_value(it, w, obj):
    """WriteSpecificValue of an object: build/object_generator.rs:647-689"""
    code, v = int(w.get('Code')), w.get('Value')
    assert set(w.attrs) <= {'Code', 'Value', 'MinVersion', 'MaxVersion'}, w.attrs
    cs = static_conds(w.get('MinVersion'), w.get('MaxVersion'))
    m = re.fullmatch(r'&String::from\("(.*)"\)', v)
    if m: return wconst(cs, code, vstr(m.group(1)))
    if v == '0' and expected(code) == 'Integer': return wconst(cs, code, '(VInt 0)')
    m = re.fullmatch(r'obj\.(\w+)\.len\(\) as (i16|i32)', v)
    if m:
        assert {'i16': 'Short', 'i32': 'Integer'}[m.group(2)] == expected(code)
        l = 'LUtf8' if m.group(1) == '__format_string' else f'L{m.group(2).upper()}'
        return f'WLen {lst(cs)} {code} {cstr(m.group(1))} {l}'
    m = re.fullmatch(r'&?obj\.(\w+)', v)
    f, = [c for c in obj.children if name_of(c) == m.group(1)]
    assert (type_of(f), expected(code), v[0]) in (('String', 'Str', '&'), ('i32', 'Integer', 'o')), v
    return f'WPair {lst(cs)} {code} {cstr(m.group(1))} {BASEW[expected(code)]}'

def obj_foreach(it, w, obj):
    src, cs = w.get('Field'), []
    m = re.fullmatch(r'obj\.(\w+)(\.values\(\))?', src)
    f, = [c for c in obj.children if c.tag in ('Field', 'Pointer') and name_of(c) == m.group(1)]
    slot, out = name_of(f), []
    if m.group(2):
        b, = w.children
        assert type_of(f) == 'TransformationMatrix' and set(b.attrs) == {'Code', 'Value'} and b.get('Value') == '*item' and expected(int(b.get('Code'))) == 'Double'
        return [f'WPick [] {b.get("Code")} {cstr(slot)} (seq 0 16)']
    if is_ptr(f) and type_of(f) == 'Handle':
        # one pair per version range for each element
        for b in w.children:
            assert b.get('Value') == '&item.as_string()' and expected(int(b.get('Code'))) == 'Str'
            out.append(f'WEach {lst(static_conds(b.get("MinVersion"), b.get("MaxVersion")))} {b.get("Code")} {cstr(slot)} WHandle')
        return out
    if len(w.children) == 1:
        b = w.children[0]
        assert set(b.attrs) == {'Code', 'Value'}
        conv = {('item', 'String', 'Str'): 'WStr', ('item.clone()', 'Vec<u8>', 'Binary'): 'WBin'}[(b.get('Value'), type_of(f), expected(int(b.get('Code'))))]
        return [f'WEach [] {b.get("Code")} {cstr(slot)} {conv}']
    comps = {'GeoMeshPoint': MESH, 'Point': POLY3, 'MLineStyleElement': ELEM}[type_of(f)]
    parts = []
    for b in w.children:
        assert b.tag == 'WriteSpecificValue' and set(b.attrs) == {'Code', 'Value'}, b.attrs
        code = int(b.get('Code'))
        q = re.fullmatch(r'&?item\.([\w.]+(?:\(\))?)( as i32)?', b.get('Value'))
        conv = BASEW[expected(code)]
        if q.group(2):
            assert conv == 'WI32' and type_of(f) == 'Point'
            conv = 'WI32ofF64'
        parts.append(f'mk_part [] {code} {comps[q.group(1)]} {conv}')
    return [f'WEachRec [] {cstr(slot)} {lst(parts)}']

def obj_write(it, obj, pre=''):
    """build/object_generator.rs:596-810"""
    fields = [c for c in obj.children if c.tag in ('Field', 'Pointer')]
    wo = [c for c in obj.children if c.tag == 'WriteOrder']
    if not wo:
        if obj.get('SubclassMarker'): it.cmds.append(wconst([], 100, vstr(obj.get('SubclassMarker'))))
        for f in fields:
            if f.get('GenerateWriter') != 'false': write_field(it, f, pre, multi_conv=True)
        return
    for w in wo[0].children:
        if w.tag == 'WriteExtensionData': it.cmds.append(f'WExts [CMin R14] "{pre}extension_data_groups"')
        elif w.tag == 'WriteField':
            f, = [c for c in fields if c.get('Name') == w.get('Field')]
            assert set(w.attrs) <= {'Field', 'DontWriteIfValueIs'}, w.attrs
            ex = []
            if w.get('DontWriteIfValueIs'):
                assert w.get('DontWriteIfValueIs') == 'Handle(0)'
                ex.append(f'CNe [({cstr(pre + name_of(f))}, (FHandle 0))]')
            if f.get('Name') == 'handle' and pre: it.cmds.append('WPair [] 5 "common.handle" WHandle')
            else: write_field(it, f, pre, ex, multi_conv=True)
        elif w.tag == 'WriteSpecificValue': it.cmds.append(obj_value(it, w, obj))
        elif w.tag == 'Foreach': it.cmds += obj_foreach(it, w, obj)
        else: raise Exception(w.tag)

def obj_common_declare(it, com):
    for f in com.children:
        if f.tag not in ('Field', 'Pointer'): continue
        n = name_of(f)
        if n == 'extension_data_groups': declare(it, f, 'common.', kind='(KList KExt)', win=win('R14', None))
        elif n == 'x_data': declare(it, f, 'common.', kind='(KList KXd)', win=win('R2000', None))
        else: declare(it, f, 'common.')

def layout_arms(it, e):
    """src/object.rs:511-628. Register 0 = 1 once the marker AcDbLayout was read"""
    it.eof, it.regs = 'true', [0]
    L = ['GEq 0 1']
    it.arm(100, 'AMark 0 [(str "AcDbLayout", 1)] None', ['GEq 0 0'])
    def pt(n, a, k=3):
        for c, x in list(zip((a, a + 10, a + 20), XYZ))[:k]: it.arm(c, f'ASet "{n}.{x}" RF64', L)
    it.arm(1, 'ASet "layout_name" RStr', L)
    pt('minimum_limits', 10, 2); pt('maximum_limits', 11, 2); pt('insertion_base_point', 12); pt('ucs_origin', 13)
    pt('minimum_extents', 14); pt('maximum_extents', 15); pt('ucs_x_axis', 16); pt('ucs_y_axis', 17)
    it.arm(70, 'ASet "layout_flags" RI16', L); it.arm(71, 'ASet "tab_order" RI16', L)
    it.arm(76, f'ASet "ucs_orthographic_type" {mt("UcsOrthographicType", "NotOrthographic")}', L)
    it.arm(146, 'ASet "elevation" RF64', L)
    for c, n in ((330, 'viewport'), (345, 'table_record'), (346, 'table_record_base')): it.arm(c, f'ASet "__{n}_handle" RHandle', L)

def lightlist_arms(it, e):
    """src/object.rs:629-661. The variable read_version_number is never set, so code 5 is always the object's handle and code 90 the version"""
    it.eof = 'true'
    it.arm(90, 'ASet "version" RI32')
def lightlist_cmds(it, e):
    """src/object.rs:1578-1587"""
    it.cmds += [wconst([], 100, vstr('AcDbLightList')), 'WPair [] 90 "version" WI32', 'WLen [] 90 "__lights_handle" LI32',
                f'WEachRec [] "__lights_handle" [mk_part [] 5 0 WHandle; mk_part [] 1 1 WStr]']

def mlinestyle_arms(it, e):
    """src/object.rs:1074-1122. Register 0 = read_element_count"""
    it.eof, it.regs = 'true', [0]
    it.arm(2, 'ASet "style_name" RStr'); it.arm(3, 'ASet "description" RStr')
    it.arm(6, 'APush "__element_line_types" RStr'); it.arm(49, 'APush "__element_offsets" RF64')
    it.arm(51, 'ASet "start_angle" RF64'); it.arm(52, 'ASet "end_angle" RF64')
    it.arm(62, 'APush "__element_colors" RI16', ['GEq 0 1']); it.arm(62, 'ASet "fill_color" RI16')
    it.arm(70, 'ASet "__flags" RI16'); it.arm(71, ['ASet "__element_count" RI16', 'AReg 0 1'])

def sortents_arms(it, e):
    """src/object.rs:1147-1180. Register 0 = is_ready_for_sort_handles; it is only set where it is not set yet"""
    it.eof, it.regs = 'true', [0]
    G = ['GEq 0 1']
    it.arm(5, 'APush "__sort_items_handle" RHandle', G); it.arm(5, ['ASet "common.handle" RHandle', 'AReg 0 1'])
    it.arm(100, 'AReg 0 1')
    it.arm(330, 'ASet "common.__owner_handle" RHandle', G); it.arm(330, ['ASet "common.__owner_handle" RHandle', 'AReg 0 1'])
    it.arm(331, 'APush "__entities_handle" RHandle', G); it.arm(331, ['APush "__entities_handle" RHandle', 'AReg 0 1'])

def material_arms(it, e):
    """src/object.rs:663-1073. Registers: 0 read_diffuse_map_file_name, 1 is_reading_normal, 2 read_diffuse_map_blend_factor,
    3 read_image_file_diffuse_map, 4 read_diffuse_map_projection_method, 5 read_diffuse_map_tiling_method,
    6 read_diffuse_map_auto_transform_method, 7 read_ambient_color_value, 8 read_bump_map_projection_method, 9 read_luminance_mode,
    10 read_bump_map_tiling_method, 11 read_normal_map_method, 12 read_bump_map_auto_transform_method, 13 read_use_image_file_for_refraction_map"""
    it.eof, it.regs = 'true', [0] * 14
    P, T, A = mt('MapProjectionMethod', 'Planar'), mt('MapTilingMethod', 'Tile'), mt('MapAutoTransformMethod', 'NoAutoTransform')
    def first(code, reg, a, b, normal=False):
        it.arm(code, [a, f'AReg {reg} 1'], [f'GEq {reg} 0'])
        it.arm(code, [b, 'AReg 1 1'] if normal else b)
    def s(code, n, r): it.arm(code, f'ASet "{n}" {r}')
    s(1, 'name', 'RStr'); s(2, 'description', 'RStr')
    first(3, 0, 'ASet "diffuse_map_file_name" RStr', 'ASet "normal_map_file_name" RStr', True)
    s(4, 'normal_map_file_name', 'RStr'); s(6, 'reflection_map_file_name', 'RStr'); s(7, 'opacity_map_file_name', 'RStr')
    s(8, 'bump_map_file_name', 'RStr'); s(9, 'refraction_map_file_name', 'RStr')
    s(40, 'ambient_color_factor', 'RF64'); s(41, 'diffuse_color_factor', 'RF64')
    first(42, 2, 'ASet "diffuse_map_blend_factor" RF64', 'ASet "normal_map_blend_factor" RF64', True)
    it.arm(43, 'APush "__normal_map_transformation_matrix_values" RF64', ['GEq 1 1'])
    it.arm(43, 'APush "__diffuse_map_transformation_matrix_values" RF64')
    s(44, 'specular_gloss_factor', 'RF64'); s(45, 'specular_color_factor', 'RF64'); s(46, 'specular_map_blend_factor', 'RF64')
    it.arm(47, 'APush "__specular_map_transformation_matrix_values" RF64')
    s(48, 'reflection_map_blend_factor', 'RF64')
    it.arm(49, 'APush "__reflection_map_transformation_matrix_values" RF64')
    s(62, 'gen_proc_color_index_value', 'RI16')
    s(70, 'override_ambient_color', 'RAsBool'); s(71, 'override_diffuse_color', 'RAsBool')
    first(72, 3, 'ASet "use_image_file_for_diffuse_map" RAsBool', 'ASet "use_image_file_for_normal_map" RAsBool')
    first(73, 4, f'ASet "diffuse_map_projection_method" {P}', f'ASet "normal_map_projection_method" {P}', True)
    first(74, 5, f'ASet "diffuse_map_tiling_method" {T}', f'ASet "normal_map_tiling_method" {T}', True)
    first(75, 6, f'ASet "diffuse_map_auto_transform_method" {A}', f'ASet "normal_map_auto_transform_method" {A}', True)
    s(76, 'override_specular_color', 'RAsBool'); s(77, 'use_image_file_for_specular_map', 'RAsBool')
    s(78, 'specular_map_projection_method', P); s(79, 'specular_map_tiling_method', T)
    first(90, 7, 'ASet "ambient_color_value" RI32', 'ASet "self_illumination" RI32')
    s(91, 'diffuse_color_value', 'RI32'); s(92, 'specular_color_value', 'RI32'); s(93, 'illumination_model', 'RI32'); s(94, 'channel_flags', 'RI32')
    s(140, 'opacity_factor', 'RF64'); s(141, 'opacity_map_blend_factor', 'RF64')
    it.arm(142, 'APush "__opacity_map_transformation_matrix_values" RF64')
    s(143, 'bump_map_blend_factor', 'RF64')
    it.arm(144, 'APush "__bump_map_transformation_matrix_values" RF64')
    s(145, 'refraction_index', 'RF64'); s(146, 'refraction_map_blend_factor', 'RF64')
    it.arm(147, 'APush "__refraction_map_transformation_matrix_values" RF64')
    s(148, 'translucence', 'RF64'); s(170, 'specular_map_auto_transform_method', A)
    s(171, 'use_image_file_for_reflection_map', 'RAsBool'); s(172, 'reflection_map_projection_method', P)
    s(173, 'reflection_map_tiling_method', T); s(174, 'reflection_map_auto_transform_method', A)
    s(175, 'use_image_file_for_opacity_map', 'RAsBool'); s(176, 'opacity_map_projection_method', P)
    s(177, 'opacity_map_tiling_method', T); s(178, 'opacity_map_auto_transform_method', A)
    s(179, 'use_image_file_for_bump_map', 'RAsBool')
    it.arm(270, [f'ASet "bump_map_projection_method" {P}', 'AReg 8 1'], ['GEq 8 0'])
    first(270, 9, 'ASet "luminance_mode" RI16', 'ASet "map_u_tile" RI16')
    it.arm(271, [f'ASet "bump_map_tiling_method" {T}', 'AReg 10 1'], ['GEq 10 0'])
    first(271, 11, 'ASet "normal_map_method" RI16', 'ASet "gen_proc_integer_value" RI16')
    first(272, 12, f'ASet "bump_map_auto_transform_method" {A}', 'ASet "global_illumination_mode" RI16')
    first(273, 13, 'ASet "use_image_file_for_refraction_map" RAsBool', 'ASet "final_gather_mode" RI16')
    s(274, 'refraction_map_projection_method', P); s(275, 'refraction_map_tiling_method', T); s(276, 'refraction_map_auto_transform_method', A)
    s(290, 'is_two_sided', 'RBool'); s(291, 'gen_proc_boolean_value', 'RBool'); s(292, 'gen_proc_table_end', 'RBool'); s(293, 'is_anonymous', 'RBool')
    s(300, 'gen_proc_name', 'RStr'); s(301, 'gen_proc_text_value', 'RStr'); s(420, 'gen_proc_color_rgb_value', 'RI32'); s(430, 'gen_proc_color_name', 'RStr')
    s(460, 'color_bleed_scale', 'RF64'); s(461, 'indirect_dump_scale', 'RF64'); s(462, 'reflectance_scale', 'RF64'); s(463, 'transmittance_scale', 'RF64')
    s(464, 'luminance', 'RF64'); it.arm(465, ['ASet "normal_map_strength" RF64', 'AReg 1 1'])
    s(468, 'reflectivity', 'RF64'); s(469, 'gen_proc_real_value', 'RF64')

OBJ_READ = {'Layout': (layout_arms, '511-628'), 'LightList': (lightlist_arms, '629-661'), 'Material': (material_arms, '663-1073'),
            'MLineStyle': (mlinestyle_arms, '1074-1122'), 'SortentsTable': (sortents_arms, '1147-1180')}
OBJ_FINALS = {'GeoData': ['PCombine ["__source_mesh_x_points"; "__source_mesh_y_points"; "__destination_mesh_x_points"; "__destination_mesh_y_points"] "geo_mesh_points"',
                          'PCombine ["__face_point_index_x"; "__face_point_index_y"; "__face_point_index_z"] "face_indices"'],
              'AcadProxyObject': ['PConcat ["__object_ids_a"; "__object_ids_b"; "__object_ids_c"; "__object_ids_d"] "object_ids"'],
              'VbaProject': ['PFlatten "__hex_data" "data"']}

def gen_objects():
    root = load_xml('ObjectsSpec')
    objs = {e.get('Name'): e for e in root.children}
    com = objs['Object']
    out, idents = [], []
    sh = Item('Object', '', 'The fields common to all objects. spec/ObjectsSpec.xml:%d-%d; reader build/object_generator.rs:153-197, writer build/object_generator.rs:199-209 and 596-810.' % (com.line, com.end))
    def finish_common(it):
        obj_common_declare(it, com)
    obj_common_declare(sh, com); common_arms(sh, com); obj_write(sh, com, 'common.')
    out.append(sh.emit_shared('ocommon'))
    for e in root.children:
        n = e.get('Name')
        if n == 'Object' or n in BY_HAND: continue
        note = ''
        if n in ('LayerIndex', 'SpatialIndex'): note = ' The time stamp defaults to the current time; here to 0, but it is always written.'
        if n == 'GeoData': note = ' A mesh point is a record of source x, y, destination x, y, then the two z, which are not written.'
        if n == 'LightList': note = ' A light is a record of its handle and the empty name that is written with it; writer src/object.rs:1578-1587.'
        if n == 'MLineStyle': note = ' An element is a record of offset, colour and line type; the post-processing of src/object.rs:245-254 is not reached after a custom reader.'
        if n == 'Material': note = ' A matrix is the list of its 16 values; the post-processing of src/object.rs:211-244 is not reached after a custom reader.'
        rd = f'src/object.rs:{OBJ_READ[n][1]}' if n in OBJ_READ else 'build/object_generator.rs:459-557'
        it = Item(n, e.get('TypeString').split(',')[0], f'spec/ObjectsSpec.xml:{e.line}-{e.end}; reader {rd}, writer build/object_generator.rs:596-810.{note}')
        it.min, it.max = e.get('MinVersion') or None, e.get('MaxVersion') or None
        fields = [f for f in e.children if f.tag in ('Field', 'Pointer')]
        for f in fields:
            nm, typ = name_of(f), type_of(f)
            if typ == 'GeoMeshPoint': declare(it, f, kind=f'(KList (KRec [KF64; KF64; KF64; KF64; KConst {f64(0)}; KConst {f64(0)}]))')
            elif nm == 'face_indices': declare(it, f, kind='(KList (KRec [KWhole; KWhole; KWhole]))', codes=[97, 98, 99])
            elif typ == 'MLineStyleElement': declare(it, f, kind=f'(KList (KRec [KF64; {I16}; KStr]))', codes=[49, 62, 6])
            elif typ == 'TransformationMatrix':
                it.dflt(nm, f'(FList {lst([f64(x) for x in IDENTITY])})')
                it.field(nm, f'(KRec {lst(["KF64"] * 16)})', True, codes_of(f), win(f.get('MinVersion'), f.get('MaxVersion')))
            elif n == 'LightList' and nm == '__lights_handle': declare(it, f, kind='(KList (KRec [KHandle; KConst (FStr [])]))')
            elif n == 'Field' and nm == '__objects_handle': declare(it, f, codes=[330, 331])
            else: declare(it, f)
        finish_common(it)
        if n in OBJ_READ: OBJ_READ[n][0](it, e)
        else:
            seen = []
            for f in fields:
                if f.get('GenerateReader') == 'false': continue
                if is_ptr(f): read_arms(it, f); continue
                cs = codes_of(f)
                if any(c not in seen for c in cs): read_arms(it, f, skip=list(seen))
                seen += cs
            it.finals = OBJ_FINALS.get(n, [])
        common_arms(it, com)
        obj_write(it, com, 'common.')
        if n == 'LightList': lightlist_cmds(it, e)
        else: obj_write(it, e)
        it.cmds.append('WXdatas [] "common.x_data"')
        ident = 'obj_' + snake(n)
        out.append(it.emit(ident, ('ocommon', sh))); idents.append(ident)
    o = HEADER.format(src='spec/ObjectsSpec.xml', what='The objects; the readers and writers of src/object.rs that are not generated are transcribed by hand in the script, or modelled in CustomModel.v: ' + ', '.join(BY_HAND) + '.', imports=' EnumData')
    write('ObjectData.v', o + '\n' + '\n\n'.join(out) + '\n\n' +
          f'(** The object types of this file, in the order of the specification. spec/ObjectsSpec.xml *)\nDefinition objects : list itype :=\n  {lst(idents, 3)}.\n')

# ---------------------------------------------------------------- header
ND = ('Local::now()', 'Utc::now()', 'Uuid::new_v4()')
def hkind(t):
    if t in ('DateTime<Local>', 'DateTime<Utc>'): return 'HDateK'
    return {'Duration': 'HDurationK', 'Uuid': 'HUuidK', 'AcadVersion': 'HVersionK', 'i64': '(HKind (KInt (-9223372036854775808) 9223372036854775807))'}.get(t) or f'(HKind {kind(t)})'
def hread(v, code):
    rc, t, et = v.get('ReadConverter'), v.get('Type'), expected(code)
    if v.get('ReaderOverride'): return '(HR RHandle)'
    S = {'AcadVersion::from_safe({})': ('Str', 'HVersion'), 'as_uuid({})': ('Str', 'HUuid'), 'as_datetime_local({})': ('Double', 'HDate'),
         'as_datetime_utc({})': ('Double', 'HDate'), 'as_duration({})': ('Double', 'HDuration'), '{} as i16': ('Integer', 'HI16of32'),
         'clipping_from_bool({})': ('Boolean', 'HClip')}
    if rc in S:
        assert S[rc][0] == et
        return S[rc][1]
    m = re.fullmatch(r'enum_from_number!\((\w+), (\w+), from_f64, \{\}\)', rc)
    if m:
        assert et == 'Double'
        return f'(HEnumF64 e_{m.group(1)} {z(ENUMS[m.group(1)][1][m.group(2)])})'
    return f'(HR {rconv(v, code)})'
def hwrite(v, code):
    wc, t, et = v.get('WriteConverter'), v.get('Type'), expected(code)
    S = {'&{}.to_string()': ('Str', 'HWVersion'), '&uuid_string(&{})': ('Str', 'HWUuid'), 'as_double_local({})': ('Double', 'HWDate'),
         'as_double_utc({})': ('Double', 'HWDate'), 'duration_as_double({})': ('Double', 'HWDuration'), 'bool_from_clipping({})': ('Boolean', 'HWClip'),
         'f64::from({} as i32)': ('Double', '(HW WF64ofInt)')}
    if wc in S:
        assert S[wc][0] == et
        return S[wc][1]
    if wc == '{} as i16' and t == 'f64':
        assert et == 'Short'
        return 'HWI16ofF64'
    return f'(HW {wconv(v, code)})'
def hdefault(t, d):
    if t == 'AcadVersion': return fint({'AcadVersion::R12': 12}[d])
    if t == 'i64': return fint(int(d))
    if t == 'Duration': return {'Duration::default()': fint(0)}[d]
    if t == 'f64' and 'PI' in d:
        import math
        return f64({'::std::f64::consts::PI / 2.0': math.pi / 2, '::std::f64::consts::PI / 4.0': math.pi / 4}[d])
    if t == 'LineWeight': return {'LineWeight::by_layer()': fint(-2), 'LineWeight::by_block()': fint(-1)}[d]
    if t == 'Color' and d == 'Color::by_entity()': return fint(257)
    if t == 'Handle' and d == 'Handle(1)': return '(FHandle 1)'
    return default(t, d)
def hvec(d):
    if '1.0e20' in d: return [float(x) for x in re.findall(r'-?1\.0e20', d)]
    return vec3(d)
def harm(w): return f'({w.get("Code")}, {cstr(w.get("Field"))}, {hread(w, int(w.get("Code")))})'
def gen_header():
    root = load_xml('HeaderVariablesSpec')
    vs = root.children
    for v in vs: assert v.tag == 'Variable'
    defaults, random, setters, cmds, fields, seen = {}, [], [], [], {}, set()
    for v in vs:
        f, n, c, t, d = v.get('Field'), v.get('Name'), int(v.get('Code')), v.get('Type'), v.get('DefaultValue')
        point = c < 0
        assert point == (t in ('Point', 'Vector'))
        if f not in seen:
            # struct and Default: build/header_generator.rs:56-107; reader: 178-229
            seen.add(f)
            if point:
                for x, y in zip(XYZ, hvec(d)): defaults[f'{f}.{x}'] = f64(y)
                setters.append(f'(str {cstr("$" + n)}, HPoint {cstr(f)})')
            else:
                if d in ND: random.append(f)
                else: defaults[f] = hdefault(t, d)
                same = [w for w in vs if w.get('Name') == n]
                if len(same) == 1: setters.append(f'(str {cstr("$" + n)}, HOne {c} {cstr(f)} {hread(v, c)})')
                else: setters.append(f'(str {cstr("$" + n)}, HMany {lst([harm(w) for w in same])})')
        mn, mx = v.get('MinVersion'), v.get('MaxVersion')
        sup = v.get('SuppressWriting') == 'true'
        comps = XYZ if point else ['']
        for i, x in enumerate(comps):
            s = f'{f}.{x}' if point else f
            fl = fields.setdefault(s, dict(kind='(HKind KF64)' if point else hkind(t), codes=[], wins=[]))
            if sup or (point and i >= -c): continue
            code = (10, 20, 30)[i] if point else c
            if code not in fl['codes']: fl['codes'].append(code)
            w = f'({opt(mn)}, {opt(mx)})'
            if w not in fl['wins']: fl['wins'].append(w)
        if sup: continue
        # writer: build/header_generator.rs:249-343
        cs = static_conds(mn, mx)
        if v.get('DontWriteDefault') == 'true':
            assert not point
            cs.append(f'CNe [({cstr(f)}, {hdefault(t, d)})]')
        if point: parts = [f'({10 * (i + 1)}, "{f}.{XYZ[i]}", HW WF64)' for i in range(-c)]
        else: parts = [f'({c}, {cstr(f)}, {hwrite(v, c)})']
        cmds.append(f'mk_hcmd (str {cstr("$" + n)}) {lst(cs)} {lst(parts)}')
    o = HEADER.format(src='spec/HeaderVariablesSpec.xml', what='The header variables.', imports=' EnumData HeaderModel HeaderSpec')
    fl = [f'mk_hfield {cstr(s)} {f["kind"]} {lst([z(c) for c in f["codes"]])} {lst(f["wins"])}' for s, f in fields.items()]
    write('HeaderData.v', o + f'''
(** [Default for Header] (build/header_generator.rs:86-107, spec/HeaderVariablesSpec.xml [DefaultValue]). *)
Definition header_defaults : list (string * fval) :=
  {lst([f"({cstr(s)}, {v})" for s, v in defaults.items()], 3)}.
(** The fields whose default is the current time or a new random identifier. *)
Definition header_random : list string := {lst([cstr(s) for s in random])}.
(** The arms of [set_header_value] (build/header_generator.rs:178-229): the first variable of every field. *)
Definition header_setters : list (rstring * hsetter) :=
  {lst(setters, 3)}.
(** The commands of [add_code_pairs_internal] (build/header_generator.rs:249-343). *)
Definition header_cmds : list hcmd :=
  {lst(cmds, 3)}.
(** The fields of the struct. *)
Definition header_fields : list hfield :=
  {lst(fl, 3)}.
Definition header_spec : hspec := mk_hspec header_defaults header_random header_setters header_cmds.
''')

if __name__ == '__main__':
    gen_tables()
    gen_entities()
    gen_objects()
    gen_header()
    gen_enums([n for n in ENUMS if n != 'AcadVersion'])
