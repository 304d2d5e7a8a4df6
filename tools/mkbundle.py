"""Generates rocq/theories/M_Bundle.v from the data files that ship with the
library: /repo/welleng/errors/tool_index.yaml, tool_codes/*.yaml and the names and
terms of iscwsa_json/*/*.json.  A reader for the plain block style of these
files; anything else stops it."""
import re, os, json
R = '/repo/welleng/errors/'


def unq(s):
    s = s.strip()
    return s[1:-1] if len(s) > 1 and s[0] == s[-1] and s[0] in "'\"" else s


def load(p):
    top, cur, ent = {}, None, None
    for n, ln in enumerate(open(p, encoding='utf8'), 1):
        ln = ln.rstrip('\n')
        if not ln.strip():
            continue
        ind = len(ln) - len(ln.lstrip())
        m = re.match(r"^\s*('[^']*'|\"[^\"]*\"|[^:]+?):(?:\s+(.*))?$", ln)
        if ind == 0:
            assert m and (m[2] is None or m[2] == '{}'), (p, n)
            cur, ent = unq(m[1]), None
            assert cur not in top, (p, n)
            top[cur] = {}
        elif ind == 2:
            assert m, (p, n)
            k = unq(m[1])
            assert k not in top[cur], (p, n)
            if m[2] is None:
                ent = k
                top[cur][k] = {}
            else:
                ent = None
                top[cur][k] = m[2]
        elif ent is not None and ind == 4 and m:
            assert unq(m[1]) not in top[cur][ent], (p, n)
            top[cur][ent][unq(m[1])] = m[2]
        else:   # continuation of a comment text in a header
            assert cur != 'codes', (p, n)
    return top


def st(s):
    assert '"' not in s
    return '"%s"' % s


def num(s):
    s = str(s)
    assert re.match(r'^\d+(\.\d+)?(e[+-]\d+)?$', s), s
    return s


def short(s):
    return re.sub(r'\W', '_', s)


idx = load(R + 'tool_index.yaml')
out = ['''(** GENERATED by tools/mkbundle.py from the data files that ship with the library.
    The tool models of welleng/errors/tool_codes/*.yaml listed in
    welleng/errors/tool_index.yaml: name, function, magnitude and propagation of
    each code, the inclination limit and tortuosity of the header.  The files of
    welleng/errors/iscwsa_json: file name, model_id and short_name; and the
    terms of those for which there is no yaml file (the formulas are left out). *)
Require Import Reals ZArith Bool String List.
Require Import Verif.Base Verif.M_Error Verif.M_Weights.
Import ListNotations.
Local Open Scope R_scope.

(** a tool model: "Short Name", "Inclination Range Max" in degrees, and whether the
    header has "Default Tortusity (rad/m)" (its value) or "XCL Tortuosity" *)
Inductive tort_entry := Tortuosity (r : R) | XclTortuosity | NoTortuosity.
Record tool_file := mkTool {
  tf_short : string; tf_max_inc : R; tf_tort : tort_entry; tf_codes : list code_entry
}.
(** a file of iscwsa_json *)
Record json_file := mkJson { jf_file : string; jf_id : string; jf_short : string }.
(** a term of one, without its formulas *)
Record json_term := mkJTerm { jt_name : string; jt_value : R; jt_mode : string; jt_unit : string }.
Record json_model := mkJModel { jm_file : string; jm_inc_max : R; jm_terms : list json_term }.
''']
out.append('(** welleng/errors/tool_index.yaml: keys and "Short Name" *)')
out.append('Definition tool_index : list (string * string) :=\n  [' + ';\n   '.join('(%s, %s)' % (st(k), st(v['Short Name'])) for k, v in idx.items()) + ']%string.\n')
names = []
for k in idx:
    p = R + 'tool_codes/%s.yaml' % k
    if not os.path.isfile(p):
        continue
    d = load(p)
    assert set(d) == {'codes', 'header'}
    h = d['header']
    m = re.match(r'^(\d+) deg$', h['Inclination Range Max'])
    if 'Default Tortusity (rad/m)' in h:
        t = 'Tortuosity ' + num(h['Default Tortusity (rad/m)'])
    elif 'XCL Tortuosity' in h:
        t = 'XclTortuosity'
    else:
        t = 'NoTortuosity'
    cs = []
    for c, e in d['codes'].items():
        assert set(e) == {'function', 'magnitude', 'propagation', 'unit'}
        cs.append('mkCode %s %s %s %s' % (st(c), st(e['function']), num(e['magnitude']), st(e['propagation'])))
    n = 'tool_' + short(k)
    out.append('(** welleng/errors/tool_codes/%s.yaml *)' % k)
    out.append('Definition %s : tool_file := mkTool %s %s (%s)\n  [%s]%%string.' % (n, st(unq(h['Short Name'])), m[1], t, ';\n   '.join(cs)))
    names.append((k, n))
out.append('\n(** the files of tool_codes *)\nDefinition tool_codes : list (string * tool_file) :=\n  [' + ';\n   '.join('(%s, %s)' % (st(k), n) for k, n in names) + ']%string.\n')
keys = {k for k in idx if not os.path.isfile(R + 'tool_codes/%s.yaml' % k)}
dirs, models = [], []
for sub in sorted(os.listdir(R + 'iscwsa_json')):
    fs = []
    for fn in sorted(os.listdir(R + 'iscwsa_json/' + sub)):
        assert fn.endswith('.json')
        d = json.load(open(R + 'iscwsa_json/%s/%s' % (sub, fn)))
        md = d['metadata']
        fs.append('mkJson %s %s %s' % (st(fn), st(md['model_id']), st(md['short_name'])))
        if md['model_id'] in keys or md['short_name'] in keys or fn[:-5] in keys:
            ts = ['mkJTerm %s %s %s %s' % (st(t['name']), num(t['value']), st(t['propagation_mode']), st(t.get('units') or t.get('unit') or '-')) for t in d['terms']]
            models.append('mkJModel %s %s\n   [%s]' % (st(fn), num(d['parameters']['inc_max']), ';\n    '.join(ts)))
    dirs.append('(%s,\n    [%s])' % (st(sub), ';\n     '.join(fs)))
out.append('(** welleng/errors/iscwsa_json, directories and files in alphabetical order *)\nDefinition iscwsa_json : list (string * list json_file) :=\n  [' + ';\n   '.join(dirs) + ']%string.\n')
out.append('(** the terms of the files that carry the key of a model without a yaml file *)\nDefinition json_models : list json_model :=\n  [' + ';\n   '.join(models) + ']%string.')
open(os.path.join(os.path.dirname(__file__), '../rocq/theories/M_Bundle.v'), 'w').write('\n'.join(out) + '\n')
