#!/usr/bin/env python3
"""Writes rocq/theories/FlagData.v from the <Flag> elements of /repo/spec/*.xml and from the flag accessors
written by hand in src/block.rs, src/class.rs and src/enums.rs. Usage: gen_flags.py /repo"""
import os, re, sys
import xml.etree.ElementTree as ET

repo = sys.argv[1] if len(sys.argv) > 1 else '/repo'
out = os.path.join(os.path.dirname(__file__), '..', 'rocq', 'theories', 'FlagData.v')
groups = []


def line_of(path, text, start=0):
    with open(path) as f:
        for i, l in enumerate(f, 1):
            if i > start and text in l:
                return i
    raise SystemExit(f'{text} not in {path}')


for name in ['EntitiesSpec', 'HeaderVariablesSpec', 'ObjectsSpec']:
    path = f'{repo}/spec/{name}.xml'
    root = ET.parse(path).getroot()
    at = 0
    for owner in root:
        fields = list(owner) if any(c.tag.endswith('Field') for c in owner) else [owner]
        for field in fields:
            flags = [c for c in field if c.tag.endswith('Flag')]
            if not flags:
                continue
            at = line_of(path, f'<Flag Name="{flags[0].get("Name")}"', at)
            fname = field.get('Field') or field.get('Name')
            groups.append((f'spec/{name}.xml:{at}-{at + len(flags) - 1}', f'{owner.get("Name")}.{fname}',
                           [(c.get('Name'), c.get('Mask'), c.get('Mask')) for c in flags]))

for src, owner in [('block', 'Block.flags'), ('class', 'Class.proxy_capability_flags'), ('enums', 'ViewMode.flags')]:
    text = open(f'{repo}/src/{src}.rs').read()
    gets = re.findall(r'pub fn (\w+)\(&?self\) -> bool \{\s*self\.flag\((\d+)\)', text)
    sets = dict(re.findall(r'pub fn set_(\w+)\(&mut self, val: bool\) \{\s*self\.set_flag\((\d+), val\)', text))
    first = line_of(f'{repo}/src/{src}.rs', f'pub fn {gets[0][0]}(')
    last = line_of(f'{repo}/src/{src}.rs', f'pub fn set_{gets[-1][0]}(') + 2
    groups.append((f'src/{src}.rs:{first}-{last}', owner, [(n, m, sets[n]) for n, m in gets]))

with open(out, 'w') as f:
    f.write('(** Every flag accessor of the crate. Generated by tools/gen_flags.py; definitions only. *)\n')
    f.write('From Verif Require Import Base BitsModel.\nOpen Scope string_scope.\n\n')
    f.write('(** One entry per word of flags: owner and, for each flag, its name, the mask its getter tests and the mask\n'
            '    its setter changes. The origin is given above each entry. *)\n')
    f.write('Definition flag_words : list (string * list flag) :=\n  [')
    parts = []
    for cite, owner, flags in groups:
        fl = ';\n        '.join(f'mk_flag "{n}" {g} {s}' for n, g, s in flags)
        parts.append(f'(* {cite} *)\n   ("{owner}",\n       [{fl}])')
    f.write(';\n   '.join(parts))
    f.write('].\n')
print(len(groups), 'words', sum(len(g[2]) for g in groups), 'flags')
