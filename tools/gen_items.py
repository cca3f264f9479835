"""Generates theories/Item*.v (models) and theories/Item*Facts.v (proofs) from the game item sources.

Every statement of the BiffRead/BiffWrite/Default implementations has to match one of the patterns
below; anything else stops the generator."""
import re, struct, math, sys
from rustsrc import *
REPO = '/repo/src/vpx/'
OUT = '/verif/rocq/theories/'
ITEMS = [('ball', 'Ball'), ('bumper', 'Bumper'), ('decal', 'Decal'), ('flasher', 'Flasher'), ('flipper', 'Flipper'),
         ('gate', 'Gate'), ('hittarget', 'HitTarget'), ('kicker', 'Kicker'), ('light', 'Light'),
         ('lightsequencer', 'LightSequencer'), ('partgroup', 'PartGroup'), ('plunger', 'Plunger'),
         ('primitive', 'Primitive'), ('ramp', 'Ramp'), ('reel', 'Reel'), ('rubber', 'Rubber'), ('spinner', 'Spinner'),
         ('textbox', 'TextBox'), ('timer', 'Timer'), ('trigger', 'Trigger'), ('wall', 'Wall')]
ENUMS = ['DecalType', 'SizingType', 'Filter', 'RenderMode', 'GateType', 'TargetType', 'KickerType', 'ShadowMode', 'Fader',
         'SpaceReference', 'PlungerType', 'RampType', 'RampImageAlignment', 'TextAlignment', 'TriggerShape', 'MaterialType', 'RenderProbeType', 'ReflectionMode', 'ViewLayoutMode', 'ToneMapper']
PAYLOAD = ['GateType', 'ToneMapper']
ENUMW = {'MaterialType': 'i32'}
TYPES = {'f32': 'f32', 'bool': 'bool', 'String': 'rstring', 'u32': 'u32', 'i32': 'i32', 'Vertex2D': 'Vertex2D',
         'Vertex3D': 'Vertex3D', 'Vertex4D': 'Vertex4D', 'Color': 'Color', 'Font': 'FontDesc', 'TimerData': 'TimerData',
         'Vec<DragPoint>': 'list DragPoint', 'Vec<u8>': 'bytes', 'Vec<u32>': 'list u32', 'Vec<Vec<u8>>': 'list bytes'}

def coq_type(t):
    m = re.match(r'^Option<(.*)>$', t)
    if m:
        c = coq_type(m.group(1))
        return 'option %s' % (c if ' ' not in c else '(%s)' % c)
    if t in ENUMS:
        return t
    return TYPES[t]

def f32(x):
    b = struct.unpack('<I', struct.pack('<f', x))[0]
    return 'Z_to_w32 %d' % b

def const_float(e):
    e = re.sub(r'std::f32::consts::PI', repr(struct.unpack('<f', struct.pack('<f', math.pi))[0]), e)
    assert re.match(r'^[-0-9. /]+$', e), e
    v = eval(e)
    # f32 division: both operands are f32; Python divides in double, which rounds identically to
    # a single f32 division for f32 operands (double has more than 2p+2 bits)
    return v

def default_value(ty, e):
    e = e.strip()
    m = re.match(r'^Option<(.*)>$', ty)
    if m:
        if e in ('None', 'Default::default()'):
            return 'None'
        k = re.match(r'^Some\((.*)\)$', e)
        assert k, (ty, e)
        return '(Some %s)' % default_value(m.group(1), k.group(1))
    isdef = e in ('Default::default()', ty + '::default()')
    if ty == 'f32':
        v = 0.0 if isdef else const_float(e)
        return '(%s) (* %s *)' % (f32(v), '0.0' if isdef else e) if v else 'f32_0'
    if ty == 'bool':
        return 'false' if isdef else {'true': 'true', 'false': 'false'}[e]
    if ty in ('u32', 'i32'):
        return '(Z_to_w32 %d)' % (0 if isdef else int(e) % 2 ** 32)
    if ty == 'String':
        if isdef or e in ('String::default()', 'String::new()'):
            return '[]'
        m = re.match(r'^("[^"]*")\s*\.(to_string|to_owned)\(\)$', e)
        assert m, e
        return '(lit %s)' % m.group(1) if m.group(1) != '""' else '[]'
    if ty in ('Vertex2D', 'Vertex3D', 'Vertex4D'):
        if isdef:
            return ty + '_default'
        m = re.match(r'^%s::new\((.*)\)$' % ty, e)
        return '(mk%s %s)' % (ty, ' '.join(default_value('f32', x) for x in split_top(m.group(1))))
    if ty == 'Color':
        m = re.match(r'^Color::(BLACK|WHITE)$', e)
        if m:
            return 'Color_' + m.group(1)
        m = re.match(r'^Color::rgb\((\d+), (\d+), (\d+)\)$', e)
        if m:
            return '(Color_rgb %s %s %s)' % m.groups()
        m = re.match(r'^Color::rgb\((.*)\)$', e)
        if m:
            # constant expressions [(x * y) as u8] on f64, truncated
            v = []
            for x in split_top(m.group(1)):
                k = re.match(r'^\(([0-9.]+) \* ([0-9.]+)\) as u8$', x)
                v.append(str(int(float(k.group(1)) * float(k.group(2)))))
            return '(Color_rgb %s)' % ' '.join(v)
        m = re.match(r'^Color::from_rgb\((0x[0-9a-fA-F]+)\)$', e)
        if m:
            return '(Color_from_rgb %d)' % int(m.group(1), 16)
        raise Exception(e)
    if ty == 'Font':
        assert isdef
        return 'FontDesc_default'
    if ty == 'TimerData':
        assert isdef
        return 'TimerData_default'
    if ty.startswith('Vec<'):
        assert isdef or e in ('vec![]', 'Vec::new()'), e
        return '[]'
    if ty in ENUMS:
        if isdef:
            return enum_default(ty)
        m = re.match(r'^%s::(\w+)$' % ty, e)
        return '%s_%s' % (ty, m.group(1))
    raise Exception((ty, e))

def enum_default(ty):
    # only #[derive(Default)] with #[default] on a variant, or impl Default
    import glob
    for p in glob.glob(REPO + 'gameitem/*.rs'):
        s = Src(p)
        b = s.block(r'impl Default for %s\s*\{' % ty)
        if b:
            m = re.search(r'(?:%s|Self)::(\w+)' % ty, b[2])
            return '%s_%s' % (ty, m.group(1))
        b = s.block(r'pub enum %s\s*\{' % ty)
        if b:
            m = re.search(r'#\[default\]\s*(\w+)', b[2])
            if m:
                return '%s_%s' % (ty, m.group(1))
    raise Exception('no default for ' + ty)

class Item:
    pass

GETTERS = {'reader.get_f32()': 'f32', 'reader.get_bool()': 'bool', 'reader.get_string()': 'string',
           'reader.get_wide_string()': 'wstring', 'reader.get_u32()': 'u32', 'reader.get_i32()': 'i32',
           'Vertex2D::biff_read(reader)': 'v2', 'Vertex3D::biff_read(reader)': 'v3', 'Vertex4D::biff_read(reader)': 'v4',
           'Vertex3D::read_unpadded(reader)': 'v3u', 'Color::biff_read(reader)': 'color', 'Font::biff_read(reader)': 'font',
           'dequantize_unsigned::<8>(reader.get_u32())': 'dili', 'reader.get_record_data(false)': 'data',
           'reader.get_record_data(false).to_vec()': 'data'}
KTYPE = {'f32': 'f32', 'bool': 'bool', 'string': 'String', 'wstring': 'String', 'u32': 'u32', 'i32': 'i32', 'v2': 'Vertex2D',
         'v3': 'Vertex3D', 'v3u': 'Vertex3D', 'v4': 'Vertex4D', 'color': 'Color', 'font': 'Font', 'dili': 'f32', 'data': 'Vec<u8>'}
RD = {'f32': 'get_f32', 'bool': 'get_bool', 'string': 'get_string', 'wstring': 'get_wide_string', 'u32': 'get_u32',
      'i32': 'get_i32', 'v2': 'Vertex2D_read', 'v3': 'Vertex3D_read', 'v3u': 'Vertex3D_read_unpadded', 'v4': 'Vertex4D_read', 'color': 'Color_read',
      'font': 'FontDesc_read', 'dili': 'get_dequantized8', 'data': 'get_record_data false'}

def parse(file, name, path=None):
    I = Item()
    path = path or 'gameitem/%s.rs' % file
    src = Src(REPO + path)
    I.src, I.file, I.name, I.path = src, file, name, path
    I.special = {}
    I.fallback_lines = None
    parse_fields(I)
    parse_default(I)
    # shared attributes macro
    I.macro = src.text.find('impl_shared_attributes!(%s);' % name)
    # reader
    a, e, body, off = src.block(r'impl BiffRead for %s\s*\{' % name)
    I.read_lines = src.lines(a, e)
    parse_reader(I, body, off)
    # writer
    a, e, body, off = src.block(r'impl BiffWrite for %s\s*\{' % name)
    I.write_lines = src.lines(a, e)
    parse_writer(I, body)
    assert I.ops[-1] == ('close',)
    return I

def parse_fields(I):
    src, name = I.src, I.name
    fs, I.struct_lines = struct_fields(src, name)
    I.fields = []
    I.array = {}
    for f, t in fs:
        m = re.match(r'^\[(\w+); (\d+)\]$', t)
        if m:
            I.array[f] = (m.group(1), int(m.group(2)))
            for k in range(int(m.group(2))):
                I.fields.append(('%s_%d' % (f, k), m.group(1)))
        else:
            I.fields.append((f, t))
    I.ty = dict(I.fields)

def parse_default(I):
    src, name = I.src, I.name
    a, e, body, _ = src.block(r'impl Default for %s\s*\{' % name)
    I.default_lines = src.lines(a, e)
    body = squash(body)
    lets = {m.group(1): m.group(2) for m in re.finditer(r'let (\w+)(?:: [\w<>]+)? = ([^;]*);', body)}
    body = body.split('-> Self {', 1)[1]
    m = re.search(r'(?:Self|%s) \{ (.*) \} \}$' % name, body)
    assert m, body
    I.default = {}
    for x in split_top(m.group(1)):
        if ':' in x and re.match(r'^\w+: ', x):
            f, v = x.split(': ', 1)
        else:
            f, v = x, x
        if v in lets:
            v = lets[v]
        if f in I.array:
            t, n = I.array[f]
            if f in I.special:
                continue
            k = re.match(r'^\[(.*); %d\]$' % n, v)
            for j in range(n):
                I.default['%s_%d' % (f, j)] = default_value(t, k.group(1))
        elif f not in I.special:
            I.default[f] = default_value(I.ty[f], v)
    if not I.special:
        assert set(I.default) == set(I.ty), set(I.default) ^ set(I.ty)

def parse_reader(I, body, off):
    src, name, file = I.src, I.name, I.file
    head = squash(body[:body.index('loop')])
    I.init = {}
    m = re.search(r'let mut (\w+) = (?:Self|%s)::default\(\);' % name, head)
    if not m:
        m = re.search(r'let mut (\w+) = (?:Self|%s) \{ (\w+): None, \.\.Default::default\(\) \};' % name, head)
        assert m, head
        I.init[m.group(2)] = 'None'
    v = m.group(1)
    I.locals = {}
    if name == 'Primitive':
        assert 'let mut compressed_animation_vertices: Option<Vec<u32>> = None;' in head
        assert 'let mut m3ax: Option<Vec<Vec<u8>>> = None;' in head
        tail = squash(body[body.rindex('}', 0, body.rindex('primitive.compressed_animation_vertices_len')):]) + ' '
        assert tail.startswith('} primitive.compressed_animation_vertices_len = compressed_animation_vertices; primitive.compressed_animation_vertices_data = m3ax; primitive }'), tail
    k = re.search(r'match tag(_str|\.as_str\(\))', body).start()
    i = body.index('{', k)
    j = match_brace(body, i)
    I.arms = []
    I.fallback = None
    for pat, rhs, pos in match_arms(body[i + 1:j]):
        rhs = squash(rhs).rstrip(';').strip()
        line = src.line(off + i + 1 + pos)
        m = re.match(r'^"([A-Z0-9]{3,4})"$', pat)
        if m and m.group(1) in I.special:
            continue
        if not m:
            t = 'timer.biff_read_tag(' in rhs
            s = 'read_shared_attribute(' in rhs
            assert rhs.endswith('reader.skip_tag(); }') or rhs.endswith('reader.skip_tag()') or rhs == I.fallback_lines, rhs
            if t and s:
                assert rhs.index('timer.biff') < rhs.index('read_shared')
            I.fallback = (t, s)
            continue
        tag = m.group(1)
        if rhs == '':
            I.arms.append((tag, 'skip', None, line))
            continue
        m = re.match(r'^let (\w+) = DragPoint::biff_read\(reader\); %s\.(\w+)\.push\(\1\)$' % v, rhs)
        if m:
            assert I.ty[m.group(2)] == 'Vec<DragPoint>'
            I.arms.append((tag, 'point', m.group(2), line))
            continue
        m = re.match(r'^match (\w+) \{ Some\(ref mut (\w+)\) => \{ \2\.push\((.*)\); \} None => (?:\{ )?\1 = Some\(vec!\[(.*)\]\)(?:; \}|,) \}$', rhs)
        if m and m.group(3) == m.group(4):
            f = {'compressed_animation_vertices': 'compressed_animation_vertices_len', 'm3ax': 'compressed_animation_vertices_data'}[m.group(1)]
            I.arms.append((tag, 'push', (f, GETTERS[m.group(3)]), line))
            continue
        m = re.match(r'^%s\.timer\.is_enabled = reader\.get_bool\(\)$' % v, rhs)
        if m:
            I.arms.append((tag, 'timer_enabled', None, line))
            continue
        m = re.match(r'^%s\.(\w+)(?:\[(\d)\])? = (.*)$' % v, rhs)
        assert m, (file, pat, rhs)
        f = m.group(1) + ('_' + m.group(2) if m.group(2) else '')
        g = m.group(3)
        t = I.ty[f]
        opt = False
        k = re.match(r'^Some\((.*)\)$', g)
        if k:
            opt = True
            g = k.group(1)
            t = re.match(r'^Option<(.*)>$', t).group(1)
        if t in ENUMS:
            assert g == 'reader.get_%s().into()' % ENUMW.get(t, 'u32'), g
            kind = 'enum:' + t
        else:
            kind = GETTERS[g]
            assert KTYPE[kind] == t, (f, t, kind)
        I.arms.append((tag, kind, (f, opt), line))
    assert I.fallback is not None

def parse_writer(I, body):
    k = body.index('{')
    text = squash(body[k + 1:match_brace(body, k)])
    I.ops = []
    while text:
        text = text.lstrip('; ').rstrip()
        if not text:
            break
        op, text = stmt(I, text)
        I.ops.append(op)

def rec(I, s, var=None, vt=None):
    """a record-writing call; the value is self.F or the variable var of type vt; returns (tag, kind, field or None)"""
    def val(e):
        e = e.strip()
        if var:
            ok = [var, '*' + var, '&' + var]
            return (None, vt, False) if e in ok else (None, vt, True) if e in (var + '.into()', var + '.clone().into()') else None
        m = re.match(r'^&?\*?self\.(\w+)(?:\[(\d)\])?$', e)
        if m:
            f = m.group(1) + ('_' + m.group(2) if m.group(2) else '')
            return (f, I.ty[f], False)
        m = re.match(r'^\(&self\.(\w+)\)\.into\(\)$', e)
        if m:
            return (m.group(1), I.ty[m.group(1)], True)
        return None
    m = re.match(r'^writer\.write_tagged_(f32|bool|string|wide_string|u32|i32|data)\( ?"([A-Z0-9]{3,4})", (.*?),? ?\)$', s)
    if m:
        k, tag, e = m.groups()
        q = re.match(r'^quantize_unsigned::<8>\((.*)\)$', e)
        if q:
            f, t, into = val(q.group(1))
            assert t == 'f32' and k == 'u32' and not into
            return tag, 'dili', f
        f, t, into = val(e)
        if into:
            assert k == ENUMW.get(t, 'u32') and t in ENUMS
            return tag, 'enum:' + t, f
        kind = {'wide_string': 'wstring'}.get(k, k)
        assert KTYPE[kind] == t, (s, t)
        return tag, kind, f
    m = re.match(r'^writer\.write_tagged\("([A-Z0-9]{4})", (.*)\)$', s)
    if m:
        f, t, into = val(m.group(2))
        return m.group(1), {'Vertex2D': 'v2', 'Vertex3D': 'v3', 'Vertex4D': 'v4'}[t], f
    m = re.match(r'^writer\.write_tagged_with\("([A-Z0-9]{4})", (.*), (Color::biff_write|Vertex3D::write_unpadded)\)$', s)
    if m:
        f, t, into = val(m.group(2))
        kind = {'Color::biff_write': 'color', 'Vertex3D::write_unpadded': 'v3u'}[m.group(3)]
        assert KTYPE[kind] == t
        return m.group(1), kind, f
    m = re.match(r'^writer\.write_tagged_unpadded_vector\( "([A-Z0-9]{4})", (\w+)\.x, \2\.y, \2\.z, \)$', s)
    if m:
        assert var == m.group(2) and vt == 'Vertex3D'
        return m.group(1), 'v3u', None
    m = re.match(r'^writer\.write_tagged_without_size\("([A-Z0-9]{4})", (.*)\)$', s)
    if m:
        f, t, into = val(m.group(2))
        assert t == 'Font'
        return m.group(1), 'font', f
    m = re.match(r'^writer\.write_marker_tag\("([A-Z0-9]{4})"\)$', s)
    if m:
        return m.group(1), 'marker', None
    return None

def stmt(I, text):
    if text.startswith('if let Some('):
        m = re.match(r'^if let Some\((\w+)\) = &?self\.(\w+) ', text)
        i = text.index('{')
        j = match_brace(text, i)
        inner = text[i + 1:j].strip()
        assert inner.endswith(';') and inner.count(';') == 1, inner
        t = re.match(r'^Option<(.*)>$', I.ty[m.group(2)]).group(1)
        r = rec(I, inner[:-1], m.group(1), t)
        assert r, inner
        return ('opt', r[0], r[1], m.group(2)), text[j + 1:]
    if text.startswith('if let (Some(m3ays), Some(m3axs)) = ( &self.compressed_animation_vertices_len, &self.compressed_animation_vertices_data, )'):
        i = text.index('{')
        j = match_brace(text, i)
        assert squash(text[i + 1:j]) == 'for (m3ay, m3ax) in m3ays.iter().zip(m3axs.iter()) { writer.write_tagged_u32("M3AY", *m3ay); writer.write_tagged_data("M3AX", m3ax); }'
        return ('anim',), text[j + 1:]
    if text.startswith('for '):
        m = re.match(r'^for (\w+) in &self\.(\w+) ', text)
        i = text.index('{')
        j = match_brace(text, i)
        k = re.match(r'^writer\.write_tagged\("([A-Z0-9]{4})", %s\);?$' % m.group(1), text[i + 1:j].strip())
        assert k and I.ty[m.group(2)] == 'Vec<DragPoint>', (text[:200], I.ty.get(m.group(2)))
        return ('points', k.group(1), m.group(2)), text[j + 1:]
    k = text.index(';')
    s, rest = text[:k].strip(), text[k + 1:]
    fixed = {'self.timer.biff_write(writer)': ('timer',), 'self.timer.biff_write_tmon(writer)': ('tmon',),
             'self.timer.biff_write_tmin(writer)': ('tmin',), 'self.write_shared_attributes(writer)': ('shared',),
             'writer.close(true)': ('close',)}
    if s in fixed:
        return fixed[s], rest
    r = rec(I, s)
    assert r, (s, text[:200])
    return ('rec',) + r, rest

WR = {'f32': 'write_tagged_f32 "%s" %s', 'bool': 'write_tagged_bool "%s" %s', 'string': 'write_tagged_string "%s" %s',
      'wstring': 'write_tagged_wide_string "%s" %s', 'u32': 'write_tagged_u32 "%s" %s', 'i32': 'write_tagged_i32 "%s" %s',
      'v2': 'write_tagged_with "%s" (Vertex2D_write %s)', 'v3': 'write_tagged_with "%s" (Vertex3D_write %s)',
      'v4': 'write_tagged_with "%s" (Vertex4D_write %s)',
      'v3u': 'write_tagged_with "%s" (Vertex3D_write_unpadded %s)', 'color': 'write_tagged_with "%s" (Color_write %s)',
      'font': 'write_tagged_without_size "%s" (FontDesc_write %s)', 'dili': 'write_tagged_quantized8 "%s" %s',
      'data': 'write_tagged_data "%s" %s'}

def wr(tag, kind, e):
    if kind.startswith('enum:'):
        w = ENUMW.get(kind[5:], 'u32')
        return 'write_tagged_%s "%s" (%s_to_%s %s)' % (w, tag, kind[5:], w, e)
    return WR[kind] % (tag, e)

def model(I):
    X = I.name
    f = I.path
    o = []
    o.append('(** Generated by tools/gen_items.py from src/vpx/%s. *)' % f)
    o.append('From Verif Require Import Base Text Biff Quantize Common Enums ItemBase.\n')
    o.append('(** %s:%s%s *)' % (f, I.struct_lines, ''.join('; the array [%s] is %d separate fields' % (a, n) for a, (t, n) in I.array.items())))
    o.append('Record %s : Type := mk%s {' % (X, X))
    o.append(';\n'.join('  %s_%s : %s' % (X, n, coq_type(t)) for n, t in I.fields) + ' }.')
    o.append('Definition %s_eta (s : %s) : %s := mk%s %s.' % (X, X, X, X, ' '.join('(%s_%s s)' % (X, n) for n, _ in I.fields)))
    o.append('(** Assignments to one field. *)')
    for n, t in I.fields:
        o.append('Definition set_%s_%s (x : %s) (s : %s) : %s := ltac:(setter %s_eta %s_%s s x).' % (X, n, coq_type(t), X, X, X, X, n))
    o.append('(** %s:%s *)' % (f, I.default_lines))
    o.append('Definition %s_default : %s := mk%s' % (X, X, X))
    o.append('\n'.join('  %s' % I.default[n] for n, _ in I.fields) + '.')
    if I.macro >= 0:
        o.append('(** %s:%d, the macro at gameitem/select.rs:168-207 *)' % (f, I.src.line(I.macro)))
        g = ['is_locked', 'editor_layer', 'editor_layer_name', 'editor_layer_visibility', 'part_group_name']
        o.append('Definition %s_shared : HasShared %s := mkHasShared\n  %s\n  %s.' % (
            X, X, ' '.join('%s_%s' % (X, n) for n in g), ' '.join('set_%s_%s' % (X, n) for n in g)))
    extra = ''
    if X == 'Primitive':
        extra = '; the local variables [compressed_animation_vertices] and [m3ax], stored at the end, are kept in their fields ([None] in the default value)'
    o.append('(** %s:%s, the arms of the record loop and its fallback%s *)' % (f, I.read_lines, extra))
    o.append('Definition %s_own_arms : list (arm %s) :=' % (X, X))
    arms = []
    for tag, kind, a, line in I.arms:
        if kind == 'skip':
            b = 'rret s'
        elif kind == 'point':
            b = 'x <- DragPoint_read ;; rret (set_%s_%s (%s_%s s ++ [x]) s)' % (X, a, X, a)
        elif kind == 'push':
            b = 'x <- %s ;; rret (set_%s_%s (opt_push (%s_%s s) x) s)' % (RD[a[1]], X, a[0], X, a[0])
        elif kind == 'timer_enabled':
            b = 'x <- get_bool ;; rret (set_%s_timer (set_td_is_enabled x (%s_timer s)) s)' % (X, X)
        else:
            v = '(Some x)' if a[1] else 'x'
            if kind.startswith('enum:'):
                w = ENUMW.get(kind[5:], 'u32')
                b = 'z <- get_%s ;; x <- rlift (%s_of_%s z) ;; rret (set_%s_%s %s s)' % (w, kind[5:], w, X, a[0], v)
            else:
                b = 'x <- %s ;; rret (set_%s_%s %s s)' % (RD[kind], X, a[0], v)
        arms.append('    ("%s", fun s => %s) (* %d *)' % (tag, b, line))
    s = ';\n'.join(arms)
    s = re.sub(r' \(\* (\d+) \*\);', r'; (* \1 *)', s)
    o.append('  [\n%s ]%%string.' % s)
    fb = ''
    if I.fallback[0]:
        fb += ' ++ lift_arms %s_timer set_%s_timer TimerData_arms' % (X, X)
    if I.fallback[1]:
        fb += ' ++ shared_arms %s_shared' % X
    o.append('Definition %s_arms : list (arm %s) := %s_own_arms%s.' % (X, X, X, fb))
    ini = '%s_default' % X
    for n, val in I.init.items():
        ini = 'set_%s_%s %s (%s)' % (X, n, val, ini)
    o.append('Definition %s_init : %s := %s.' % (X, X, ini))
    o.append('Definition %s_read : rd_M %s := read_arms %s_arms %s_init.' % (X, X, X, X))
    o.append('(** %s:%s *)' % (f, I.write_lines))
    o.append('Definition %s_write (v : %s) : wr_M :=' % (X, X))
    ws = []
    for op in I.ops:
        if op[0] == 'rec':
            if op[2] == 'marker':
                ws.append('write_marker_tag "%s"' % op[1])
            else:
                ws.append(wr(op[1], op[2], '(%s_%s v)' % (X, op[3])))
        elif op[0] == 'opt':
            ws.append('wopt (%s_%s v) (fun x => %s)' % (X, op[3], wr(op[1], op[2], 'x')))
        elif op[0] == 'points':
            ws.append('wfor (%s_%s v) (fun x => write_tagged_with "%s" (DragPoint_write x))' % (X, op[2], op[1]))
        elif op[0] == 'timer':
            ws.append('TimerData_write (%s_timer v)' % X)
        elif op[0] == 'tmon':
            ws.append('TimerData_write_tmon (%s_timer v)' % X)
        elif op[0] == 'tmin':
            ws.append('TimerData_write_tmin (%s_timer v)' % X)
        elif op[0] == 'shared':
            ws.append('write_shared_attributes %s_shared v' % X)
        elif op[0] == 'anim':
            ws.append('write_animation (Primitive_compressed_animation_vertices_len v) (Primitive_compressed_animation_vertices_data v)')
        elif op[0] == 'close':
            ws.append('close true')
    o.append('  ' + ' >>>\n  '.join(ws) + '.')
    return '\n'.join(o) + '\n'

BY = {'f32': 'w32_bytes %s', 'u32': 'w32_bytes %s', 'i32': 'w32_bytes %s', 'bool': 'bool_bytes %s', 'string': 'string_bytes %s',
      'wstring': 'wstring_bytes %s', 'v2': 'v2_bytes %s', 'v3': 'v3_bytes %s', 'v3u': 'v3u_bytes %s', 'v4': 'v4_bytes %s', 'color': 'color_bytes %s',
      'dili': 'dili_bytes %s', 'data': '%s', 'font': 'FontDesc_bytes %s'}

def rr(tag, kind, e):
    if kind.startswith('enum:'):
        return 'R "%s" (w32_bytes (%s_to_%s %s))' % (tag, kind[5:], ENUMW.get(kind[5:], 'u32'), e)
    if kind == 'marker':
        return 'R "%s" []' % tag
    return '%s "%s" (%s)' % ('R0' if kind == 'font' else 'R', tag, BY[kind] % e)

OKF = {'string': 'str_ok', 'wstring': 'wstr_ok', 'dili': 'dili_ok', 'data': 'data_ok', 'font': 'FontDesc_ok'}

def okfun(kind):
    if kind.startswith('enum:') and kind[5:] in PAYLOAD:
        return kind[5:] + '_ok'
    return OKF.get(kind)

def facts(I):
    X = I.name
    o = ['(** Generated by tools/gen_items.py: what [%s_write] produces and what [%s_read] makes of it. *)' % (X, X)]
    o.append('From Verif Require Import Base Text Biff Quantize Common Enums ItemBase Item%s.' % X)
    o.append('From Verif Require Import BaseFacts TextFacts BiffFacts CommonFacts TermFacts QuantizeFacts EnumsFacts ItemBaseFacts.\n')
    ok, okdoc = [], []
    recs, st, wt = [], [], []
    P = lambda n: '(%s_%s v)' % (X, n)
    for op in I.ops:
        if op[0] == 'rec':
            _, tag, kind, f = op
            recs.append((1, rr(tag, kind, P(f) if f else None)))
            if okfun(kind):
                ok.append('%s %s' % (okfun(kind), P(f)))
            if kind.startswith('enum:'):
                st.append('srec_enum %s_roundtrip.' % kind[5:]); wt.append('wrec.')
            elif kind == 'font':
                st.append('srec_font.'); wt.append('wrec_font.')
            elif kind == 'data':
                st.append('srec_data.'); wt.append('wrec.')
            else:
                st.append('srec.'); wt.append('wrec.')
        elif op[0] == 'opt':
            _, tag, kind, f = op
            recs.append((0, 'orec %s (fun x => %s)' % (P(f), rr(tag, kind, 'x'))))
            if I.init.get(f, I.default[f]) != 'None':
                ok.append('is_some %s' % P(f))
                st.append('sopt_some (%s).' % P(f))
                assert not okfun(kind)
                wt.append('woptrec.')
                continue
            if okfun(kind):
                ok.append('opt_ok %s %s' % (okfun(kind), P(f)))
            if kind.startswith('enum:'):
                st.append('sopt_enum set_%s_%s %s_%s %s_roundtrip.' % (X, f, X, f, kind[5:]))
            elif kind == 'data':
                st.append('sopt_data set_%s_%s %s_%s.' % (X, f, X, f))
            else:
                st.append('sopt set_%s_%s %s_%s.' % (X, f, X, f))
            wt.append('woptrec.')
        elif op[0] == 'points':
            _, tag, f = op
            recs.append((0, 'map (fun x => R0 "%s" (DragPoint_bytes x)) %s' % (tag, P(f))))
            ok.append('forallb DragPoint_ok %s' % P(f))
            st.append('spoints set_%s_%s %s_%s.' % (X, f, X, f)); wt.append('wpoints.')
        elif op[0] in ('timer', 'tmon', 'tmin'):
            if op[0] != 'tmin':
                recs.append((1, 'R "TMON" (bool_bytes (td_is_enabled (%s_timer v)))' % X))
                st.append('stimer %s_timer set_%s_timer.' % (X, X))
            if op[0] != 'tmon':
                recs.append((1, 'R "TMIN" (w32_bytes (td_interval (%s_timer v)))' % X))
                st.append('stimer %s_timer set_%s_timer.' % (X, X))
            wt.append({'timer': 'wtimer.', 'tmon': 'wrec.', 'tmin': 'wrec.'}[op[0]])
        elif op[0] == 'shared':
            recs += [(1, 'R "LOCK" (bool_bytes %s)' % P('is_locked')),
                     (0, 'orec %s (fun x => R "LAYR" (w32_bytes x))' % P('editor_layer')),
                     (0, 'orec %s (fun x => R "LANR" (string_bytes x))' % P('editor_layer_name')),
                     (0, 'orec %s (fun x => R "GRUP" (string_bytes x))' % P('part_group_name')),
                     (0, 'orec %s (fun x => R "LVIS" (bool_bytes x))' % P('editor_layer_visibility'))]
            ok += ['opt_ok str_ok %s' % P('editor_layer_name'), 'opt_ok str_ok %s' % P('part_group_name')]
            st.append('srec. ' + ' '.join('sopt set_%s_%s %s_%s.' % (X, n, X, n) for n in ['editor_layer', 'editor_layer_name', 'part_group_name', 'editor_layer_visibility']))
            wt.append('wshared %s_shared.' % X)
        elif op[0] == 'anim':
            a, b = P('compressed_animation_vertices_len'), P('compressed_animation_vertices_data')
            recs.append((0, 'anim_recs %s %s' % (a, b)))
            ok.append('anim_ok %s %s' % (a, b))
            st.append('eapply (S_anim (fun l d s => set_Primitive_compressed_animation_vertices_data d (set_Primitive_compressed_animation_vertices_len l s)) Primitive_compressed_animation_vertices_len Primitive_compressed_animation_vertices_data); [intros []; reflexivity|reflexivity|reflexivity|asm|reflexivity|reflexivity|intros ? ? ? []; eapply ArmH_eq; [eapply (ArmH_get _ (fun s y => _)); gets|reflexivity]|intros ? ? ? []; eapply ArmH_eq; [eapply (ArmH_data (fun s y => _))|reflexivity]|cbv beta].'); wt.append('wanim.')
    body = ''
    for k, (one, r) in enumerate(recs):
        body += r + (' ::\n  ' if one else ' ++\n  ')
    o.append('(** The records that are written, in order. *)')
    o.append('Definition %s_recs (v : %s) : list rec :=\n  %s[].' % (X, X, body))
    o.append('(** The values that can be stored: see the components. *)')
    o.append('Definition %s_ok (v : %s) : bool :=\n  %s.' % (X, X, ' && '.join(ok) or 'true'))
    o.append('Lemma %s_steps v : %s_ok v = true -> Steps (dispatch %s_arms) %s_init (%s_recs v) v.' % (X, X, X, X, X))
    o.append('Proof.\n  intros H. unfold %s_ok in H. split_ok H. eapply Steps_eq.' % X)
    o.append('  - unfold %s_recs.\n    %s\n    constructor.' % (X, ' '.join(st)))
    if any(op[0] == 'opt' and I.init.get(op[3], I.default[op[3]]) != 'None' for op in I.ops):
        o.append('  - destruct v. cbn in *. repeat match goal with H : is_some ?o = true |- _ => destruct o; [clear H|discriminate H] end. vm_compute. reflexivity.')
    else:
        o.append('  - destruct v as [%s]. vm_compute. repeat match goal with t : TimerData |- _ => destruct t end. reflexivity.' % ' '.join('?' for _ in I.fields) if 'timer' in I.ty else '  - destruct v. vm_compute. reflexivity.')
    o.append('Qed.')
    o.append('Lemma %s_wapp v : %s_ok v = true -> wapp (%s_write v) (enc (%s_recs v ++ [endb])).' % (X, X, X, X))
    o.append('Proof.\n  intros H. unfold %s_ok in H. split_ok H. unfold %s_write, %s_recs. recs_norm.\n  %s apply wapp_close.\nQed.' % (X, X, X, ' '.join(wt)))
    o.append('Lemma %s_roundtrip v : %s_ok v = true ->\n  exists b, run_writer (%s_write v) = Ok b /\\ reads_as %s_read b v.' % (X, X, X, X))
    o.append('Proof. intros H. exact (item_roundtrip %s_write %s_arms %s_init %s_recs v (%s_wapp v H) ltac:(unfold %s_write; closes) (%s_steps v H)). Qed.' % (X, X, X, X, X, X, X))
    o.append('Lemma %s_term : Term %s_read.' % (X, X))
    tl = ''
    o.append('Proof.\n  apply Term_read_arms. unfold %s_arms, %s_own_arms%s. item_term.\nQed.' % (X, X, ', shared_arms' if I.fallback[1] else ''))
    o.append('Lemma %s_yields : Yields %s_read (fun v => %s = true).' % (X, X, ('%s_ok v' % X) if X != 'Primitive' else 'Primitive_ok_but_frames v'))
    o.append('Proof.\n  apply Yields_read_arms; [|reflexivity]. unfold %s_arms, %s_own_arms%s.\n  item_yields %s.\nQed.' % (X, X, ', shared_arms' if I.fallback[1] else '', X + '_ok' if X != 'Primitive' else 'Primitive_ok_but_frames'))
    if X == 'Primitive':
        # definitions used above
        k = next(i for i, l in enumerate(o) if l.startswith('Lemma Primitive_yields'))
        okb = ' && '.join(c if not c.startswith('anim_ok') else 'anim_data_ok (Primitive_compressed_animation_vertices_data v)' for c in ok)
        o.insert(k, '(** All of [Primitive_ok] except that the animation frames and their lengths come in pairs. *)\nDefinition Primitive_ok_but_frames (v : Primitive) : bool :=\n  %s.' % okb)
    return '\n'.join(o) + '\n'

if __name__ == '__main__':
    only = sys.argv[1:]
    for file, name in ITEMS:
        I = parse(file, name)
        if only and name not in only:
            continue
        open(OUT + 'Item%s.v' % name, 'w').write(model(I))
        open(OUT + 'Item%sFacts.v' % name, 'w').write(facts(I))
