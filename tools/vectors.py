#!/usr/bin/env python3
"""Extracts the payload vectors of the Go unit tests (src type, context, bin)
from /repo/box_types_*_test.go and prints them as a Coq list.

usage: vectors.py > rocq/theories/Vectors.v
"""
import glob, re, sys

def skip_string(s, i):
    q = s[i]
    j = i + 1
    while s[j] != q:
        if s[j] == '\\' and q != '`':
            j += 1
        j += 1
    return j + 1

def strip_comments(s):
    out, i = [], 0
    while i < len(s):
        if s[i] in '"`\'':
            j = skip_string(s, i)
            out.append(s[i:j]); i = j
        elif s.startswith('//', i):
            j = s.index('\n', i)
            i = j
        else:
            out.append(s[i]); i += 1
    return ''.join(out)

def block(s, i):
    """s[i] == '{': index after the matching brace"""
    d = 0
    while True:
        if s[i] in '"`\'':
            i = skip_string(s, i); continue
        if s[i] == '{': d += 1
        if s[i] == '}':
            d -= 1
            if d == 0: return i + 1
        i += 1

def byte_list(body):
    res = []
    i = 0
    toks = []
    cur = ''
    while i < len(body):
        if body[i] in '"\'':
            j = skip_string(body, i); cur += body[i:j]; i = j; continue
        if body[i] == ',':
            toks.append(cur.strip()); cur = ''
        else: cur += body[i]
        i += 1
    toks.append(cur.strip())
    for t in toks:
        if not t: continue
        if t[0] == "'":
            c = t[1:-1]
            if c.startswith('\\x'): res.append(int(c[2:], 16))
            elif len(c) == 1: res.append(ord(c))
            elif c in ('\\n',): res.append(10)
            elif c in ('\\t',): res.append(9)
            else: raise ValueError(t)
        else:
            v = 0
            for p in t.split('|'):
                p = p.strip()
                m = re.fullmatch(r'(\w+)\s*<<\s*(\d+)', p)
                if m: v |= int(m.group(1), 0) << int(m.group(2))
                else: v |= int(p, 0)
            res.append(v)
    return res

REG = {}
for fn in glob.glob('/repo/box_types_*.go'):
    if fn.endswith('_test.go'): continue
    s = open(fn).read()
    for m in re.finditer(r'func BoxType(\w+)\(\) BoxType\s*\{\s*return (\w+)\("([^"]*)"\)', s):
        REG[m.group(1)] = m.group(3)
    for m in re.finditer(r'func BoxType(\w+)\(\) BoxType\s*\{\s*return BoxType\{([^}]*)\}', s):
        REG[m.group(1)] = bytes(byte_list(m.group(2)))

vecs, skipped = [], []
for fn in sorted(glob.glob('/repo/box_types_*_test.go')):
    raw = open(fn).read()
    s = strip_comments(raw)
    for m in re.finditer(r'name:\s*"([^"]*)",\s*src:\s*&(\w+)\{', s):
        name, ty = m.group(1), m.group(2)
        e = block(s, m.end() - 1)
        src = s[m.end() - 1:e]
        # enclosing case: until matching close
        d, i = 1, e
        start = e
        while d > 0:
            if s[i] in '"`\'':
                i = skip_string(s, i); continue
            if s[i] == '{': d += 1
            if s[i] == '}': d -= 1
            i += 1
        case = s[e:i]
        b = re.search(r'bin:\s*\[\]byte\{', case)
        if b:
            be = block(case, b.end() - 1)
            data = byte_list(case[b.end():be - 1])
        elif re.search(r'bin:\s*nil', case):
            data = []
        else:
            skipped.append((fn, name, 'no bin')); continue
        a = re.search(r'AnyTypeBox:\s*AnyTypeBox\{Type:\s*([^}]*)\}', src)
        if a:
            x = a.group(1)
            q = re.search(r'StrToBoxType\("([^"]*)"\)|BoxType(\w+)\(\)', x)
            bt = None
            if q: bt = q.group(1) or REG.get(q.group(2))
            if bt is None:
                q = re.fullmatch(r'BoxType\{(.*)', x)
                if q: bt = bytes(byte_list(q.group(1)))
                q = re.match(r'Uint32ToBoxType\((\d+)\)', x)
                if q: bt = int(q.group(1)).to_bytes(4, 'big')
        else:
            bt = REG.get(ty)
            if bt is None and re.fullmatch(r'\w{4}', name): bt = name
        if bt is None:
            skipped.append((fn, name, 'type ' + ty)); continue
        if isinstance(bt, str): bt = bt.encode('latin1')
        c = re.search(r'ctx:\s*Context\{([^}]*)\}', case)
        ctx = c.group(1) if c else ''
        st = re.search(r'str:\s*((?:"(?:[^"\\]|\\.)*"|`[^`]*`)(?:\s*\+\s*(?:"(?:[^"\\]|\\.)*"|`[^`]*`))*)', case)
        text = None
        if st:
            parts = re.findall(r'"(?:[^"\\]|\\.)*"|`[^`]*`', st.group(1))
            text = ''
            for p in parts:
                if p[0] == '`': text += p[1:-1]
                else: text += p[1:-1].encode().decode('unicode_escape')
        vecs.append((fn.split('/')[-1], name, ty, bt, ctx, data, text))
def hx(b): return ''.join('%02x' % x for x in b)
def ctxc(c):
    d = dict(re.findall(r'(\w+):\s*(\w+)', c))
    g = lambda k: d.get(k, 'false')
    return d

def coqctx(c):
    d = dict(re.findall(r'(\w+):\s*(\w+)', c))
    unknown = set(d) - {'IsQuickTimeCompatible', 'QuickTimeKeysMetaEntryCount', 'UnderIlst', 'UnderIlstMeta', 'UnderIlstFreeMeta', 'UnderUdta', 'UnderWave'}
    assert not unknown, unknown
    f = lambda k: d.get(k, 'false')
    return '(mkctx %s %s %s %s %s %s %s)' % (f('IsQuickTimeCompatible'), d.get('QuickTimeKeysMetaEntryCount', '0'), f('UnderWave'), f('UnderIlst'),
        f('UnderIlstMeta'), f('UnderIlstFreeMeta'), f('UnderUdta'))
def q(t): return '"' + t.replace('"', '""') + '"'
if __name__ == '__main__':
    print("""(** The payloads of the Go unit tests: test name, box type, context, payload,
    expected Stringify text.  Generated by tools/vectors.py from
    /repo/box_types_*_test.go. *)
From Verif Require Import Base Schema Registry.
Local Open Scope string_scope.
Local Open Scope list_scope.
Local Open Scope N_scope.

Record vector : Set := mkvec {
  vc_name : string; vc_type : btype; vc_ctx : context; vc_bin : string; vc_str : string }.
Definition vectors : list vector := [""")
    print(';\n'.join('  mkvec %s (hex "%s") %s\n    "%s"\n    %s' % (q(v[0][10:-8] + ': ' + v[1]), hx(v[3]), coqctx(v[4]), hx(v[5]), q(v[6] or '')) for v in vecs))
    print('].')
    for v in skipped: print('(* not covered: %s %s: %s *)' % (v[0].split('/')[-1], v[1], v[2].replace("'", '')))
