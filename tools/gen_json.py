"""Generates JsonItems.v, SpecJsonItems.v and JsonItemsFacts.v: the JSON forms of the game items;
JsonGameData.v, SpecJsonGameData.v and JsonGameDataFacts.v: that of the game data."""
import re, os
from rustsrc import Src, struct_fields, split_top, squash, match_brace
from gen_items import ITEMS

REPO = '/repo/src/vpx/'
OUT = os.path.join(os.path.dirname(__file__), '..', 'rocq', 'theories')
ENUMS = ['DecalType', 'SizingType', 'Filter', 'RenderMode', 'GateType', 'TargetType', 'KickerType', 'ShadowMode', 'Fader',
         'SpaceReference', 'PlungerType', 'RampType', 'RampImageAlignment', 'TextAlignment', 'TriggerShape', 'MaterialType',
         'RenderProbeType', 'ReflectionMode', 'ViewLayoutMode', 'ToneMapper', 'OutputTarget']
PAYLOAD = ['GateType', 'ToneMapper']
# the Rust types of the items' own fields, for each type of the JSON structure
CODECS = {'f32': 'jc_f32', 'F32WithNanInf': 'jc_f32_nan_inf', 'bool': 'jc_bool', 'String': 'jc_string', 'u32': 'jc_u32', 'i32': 'jc_i32', 'u8': 'jc_u8',
          'Vertex2D': 'jc_Vertex2D', 'Vertex3D': 'jc_Vertex3D', 'Vertex4D': 'jc_Vertex4D', 'Color': 'jc_Color', 'FontJson': 'jc_FontDesc',
          'DragPoint': 'jc_DragPoint'}
FINITE = {'f32': 'finite', 'Vertex2D': 'Vertex2D_finite', 'Vertex3D': 'Vertex3D_finite', 'Vertex4D': 'Vertex4D_finite', 'DragPoint': 'DragPoint_finite'}

def codec(t):
    m = re.match(r'^(Option|Vec)<(.*)>$', t)
    if m:
        c = codec(m.group(2))
        if ' ' in c:
            c = '(%s)' % c
        return ('jc_option ' if m.group(1) == 'Option' else 'jc_list ') + c
    if t in ENUMS:
        return 'jc_' + t
    return CODECS[t]

def finite(t, e):
    """The condition on the value [e] of type [t], or None"""
    m = re.match(r'^(Option|Vec)<(.*)>$', t)
    if m:
        inner = m.group(2)
        p = FINITE.get(inner)
        if p is None and inner in PAYLOAD:
            p = '(fun e => %s_ok e = true)' % inner
        return p and '%s %s (%s)' % ('for_some' if m.group(1) == 'Option' else 'Forall', p, e)
    if t in PAYLOAD:
        return '%s_ok (%s) = true' % (t, e)
    p = FINITE.get(t)
    return p and '%s (%s)' % (p, e)

def rust_type(t):
    """The type of the item's field that goes with the type [t] of the JSON structure"""
    return t.replace('F32WithNanInf', 'f32').replace('FontJson', 'Font')

class Field:
    pass

def json_struct(src, name):
    a, b, body, _ = src.block(r'struct %s \{' % name)
    out = []
    for f in split_top(body):
        m = re.match(r'^((?:#\[.*?\]\s*)*)(?:pub(?:\([a-z]+\))? )?(\w+):\s*(.*)$', f.strip(), re.S)
        assert m, f
        x = Field()
        x.name, x.type = m.group(2), re.sub(r'\s+', '', m.group(3))
        x.key, x.names, x.skip, x.flatten = x.name, [x.name], False, False
        for at in re.findall(r'#\[(.*?)\]', m.group(1), re.S):
            at = squash(at)
            if at == 'serde(skip_serializing_if = "Option::is_none")':
                x.skip = True
            elif at == 'serde(flatten)':
                assert x.type == 'TimerData'
                x.flatten = True
            else:
                k = re.match(r'^serde\((?:rename = "(\w+)", )?alias = "(\w+)"\)$', at)
                assert k, at
                x.key = k.group(1) or x.name
                x.names = [x.key, k.group(2)]
        out.append(x)
    return out, src.lines(a, b)

def literals(src, regex, start):
    for m in re.compile(regex).finditer(src.text, start):
        i = src.text.index('{', m.start())
        j = match_brace(src.text, i)
        parts = [squash(x) for x in split_top(src.text[i + 1:j]) if x.strip()]
        yield m.start(), j, parts

def read_literal(parts):
    out = {}
    for p in parts:
        m = re.match(r'^(\w+)(?:: (.*))?$', p)
        if not m:
            return None
        out[m.group(1)] = m.group(2) or m.group(1)
    return out

def source_field(e, recv):
    """The field of the receiver that the expression copies"""
    for pat in [r'^%s\.(\w+)$', r'^%s\.(\w+)\.clone\(\)$', r'^%s\.(\w+)\.into\(\)$', r'^%s\.(\w+)\.map\(F32WithNanInf::from\)$', r'^%s\.(\w+)\.map\(f32::from\)$',
                r'^FontJson::from_font\(&%s\.(\w+)\)$', r'^%s\.(\w+)\.to_font\(\)$']:
        m = re.match(pat % recv, e)
        if m:
            return m.group(1)
    return None

def item(mod, st):
    src = Src(REPO + 'gameitem/%s.rs' % mod)
    fields, fl = struct_fields(src, st)
    jf, jl = json_struct(src, st + 'Json')
    start = src.block(r'struct %sJson \{' % st)[1]
    names = set(f.name for f in jf)
    frm = None
    for a, b, parts in literals(src, r'\b(?:Self|%sJson) \{' % st, start):
        lit = read_literal(parts)
        if lit and set(lit) == names:
            assert frm is None
            frm, frl = lit, src.lines(a, b)
    to = None
    for a, b, parts in literals(src, r'\b(?:Self|%s) \{' % st, start):
        lit = read_literal(parts)
        if lit and set(lit) == set(f for f, _ in fields) and any(re.match(r'^(self|\w+_json)\.', e) for e in lit.values()):
            assert to is None
            to, tol = lit, src.lines(a, b)
    assert frm and to, st
    types = dict(fields)
    x = Field()
    x.st, x.mod, x.fields, x.jf = st, mod, fields, jf
    x.cite = '(** gameitem/%s.rs:%s [%sJson]; %s the item as JSON; %s back *)' % (mod, jl, st, frl, tol)
    for f in jf:
        e = frm[f.name]
        f.src = source_field(e, r'\w+')
        assert f.src, e
        assert types[f.src].replace('super::', '').replace(' ', '') == rust_type(f.type), (st, f.name, types[f.src], f.type)
    x.args = []
    for f, t in fields:
        e = to[f]
        if e in ('None', 'false'):
            x.args.append((f, e))
        else:
            k = source_field(e, r'(?:self|\w+_json)')
            assert k in names, (st, f, e)
            x.args.append((f, 'j_' + k))
    return x

def value(st, f):
    if f.type == '[f32;9]':
        return '[%s]' % '; '.join('%s_%s_%d x' % (st, f.src, i) for i in range(9))
    return '%s_%s x' % (st, f.src)

def wrap(parts, sep, indent, width=150):
    lines, cur = [], ''
    for i, p in enumerate(parts):
        p = p + (sep if i + 1 < len(parts) else '')
        if cur and len(cur) + 1 + len(p) > width:
            lines.append(cur)
            cur = p
        else:
            cur = cur + ' ' + p if cur else p
    lines.append(cur)
    return ('\n' + indent).join(lines)

def field_codec(f):
    if f.type == '[f32;9]':
        return 'jc_array 9 jc_f32'
    return codec(f.type)

def paren(c):
    return '(%s)' % c if ' ' in c else c

def definition(x):
    groups, cur = [], []
    for f in x.jf:
        if f.flatten:
            if cur:
                groups.append(cur)
                cur = []
            groups.append('put_TimerData (%s)' % value(x.st, f))
        elif f.skip:
            m = re.match(r'^Option<(.*)>$', f.type)
            cur.append('put_some "%s" %s (%s)' % (f.key, paren(codec(m.group(1))), value(x.st, f)))
        else:
            v = value(x.st, f)
            cur.append('put "%s" %s %s' % (f.key, paren(field_codec(f)), v if v[0] == '[' else '(%s)' % v))
    if cur:
        groups.append(cur)
    ws = ' ++\n      '.join(g if isinstance(g, str) else '[' + wrap(g, ';', '       ') + ']' for g in groups)
    rs = []
    for f in x.jf:
        if f.flatten:
            rs.append('j_%s <~ get_TimerData o' % f.name)
        else:
            rs.append('j_%s <~ get o [%s] %s' % (f.name, '; '.join('"%s"%%string' % n for n in f.names), paren(field_codec(f))))
    args = []
    rot = None
    for f, e in x.args:
        if any(g.type == '[f32;9]' and 'j_' + g.name == e for g in x.jf):
            rot = e
            args += ['r%d' % i for i in range(9)]
        else:
            args.append(e)
    build = 'Ok (mk%s %s)' % (x.st, wrap(args, '', '        '))
    if rot:
        build = 'match %s with [%s] => %s | _ => Err end' % (rot, '; '.join('r%d' % i for i in range(9)), build)
    return '%s\nDefinition jc_%s : jcodec %s :=\n  jc_record (fun x => object (\n      %s))\n    (fun o =>\n      %s ;;\n      %s).\n' % (
        x.cite, x.st, x.st, ws, wrap(rs, ' ;;', '      '), build)

def conditions(x):
    out = []
    for f in x.jf:
        if f.type == '[f32;9]':
            out += ['finite (%s_%s_%d x)' % (x.st, f.src, i) for i in range(9)]
        else:
            c = finite(f.type, value(x.st, f))
            if c:
                out.append(c)
    return out

# what the item's JSON leaves to other files
INDEX = ['is_locked', 'editor_layer', 'editor_layer_name', 'editor_layer_visibility']
MESH = ['num_vertices', 'compressed_vertices_len', 'compressed_vertices_data', 'num_indices', 'compressed_indices_len', 'compressed_indices_data',
        'compressed_animation_vertices_len', 'compressed_animation_vertices_data']

def json_part(x):
    names = [f for f, _ in x.fields]
    left = [] if x.st == 'PartGroup' else [f for f in INDEX if f in names]
    if x.st == 'Primitive':
        left += MESH
    types = dict(x.fields)
    e = 'x'
    for f in left:
        e = 'set_%s_%s %s %s' % (x.st, f, 'false' if types[f] == 'bool' else 'None', '(%s)' % e if ' ' in e else e)
    return e

GROUPS = [('bounds', 'GDBounds'), ('desktop', 'GDDesktop'), ('cabinet', 'GDCabinet'), ('physics', 'GDPhysics'), ('scene', 'GDScene')]

def gamedata():
    """The game data: its fields are spread over the records of GD*.v and [GDTail]."""
    src = Src(REPO + 'gamedata.rs')
    fields = struct_fields(src, 'GameData')[0]
    jf, jl = json_struct(src, 'GameDataJson')
    types = dict(fields)
    a = src.text.index('pub fn to_game_data')
    (a0, a1, to), = [(p, q, read_literal(x)) for p, q, x in literals(src, r'\bGameData \{\s*left', a)][:1]
    b = src.text.index('pub fn from_game_data')
    (b0, b1, frm), = [(p, q, read_literal(x)) for p, q, x in literals(src, r'\bGameDataJson \{\s*left', b)][:1]
    assert set(to) == set(types) and set(frm) == set(f.name for f in jf)
    where, groups = {}, []
    for g, rec in GROUPS:
        names = re.findall(r'^  %s_(\w+) :' % rec, open(os.path.join(OUT, rec + '.v')).read(), re.M)
        groups.append((g, rec, names))
        for n in names:
            where[n] = '%s_%s (gd_%s x)' % (rec, n, g)
    tail = re.findall(r'gt_(\w+) : ', re.search(r'Record GDTail.*?\}\.', open(os.path.join(OUT, 'GameData.v')).read(), re.S).group(0))
    for n in tail:
        where[n] = 'gt_%s (gd_tail x)' % n
    where['bg_enable_fss'] = 'gd_bg_enable_fss x'
    BETA = 'is_10_8_0_beta1_to_beta4'
    where[BETA] = 'gd_beta x'
    assert set(where) == set(types), set(where) ^ set(types)
    def codec_of(t):
        return 'jc_array 16 jc_Color' if t == '[Color;16]' else codec(t)
    ws, rs, conds = [], [], []
    for f in jf:
        e = re.sub(r' \.', '.', frm[f.name])
        if f.name == BETA:
            assert e == 'Some(game_data.%s).filter(|b| *b)' % BETA or e.startswith('Some(game_data.%s).filter(' % BETA), e
            ws.append('put_some "%s" jc_bool (if %s then Some true else None)' % (f.key, where[BETA]))
        else:
            k = source_field(e, 'game_data')
            assert k and types[k].replace(' ', '') == rust_type(f.type), (f.name, e)
            m = re.match(r'^Option<(.*)>$', f.type)
            if f.skip:
                ws.append('put_some "%s" %s (%s)' % (f.key, paren(codec(m.group(1))), where[k]))
            else:
                ws.append('put "%s" %s (%s)' % (f.key, paren(codec_of(f.type)), where[k]))
            c = 'List.length (%s) = 16%%nat' % where[k] if f.type == '[Color;16]' else finite(f.type, where[k])
            if c:
                conds.append(c)
        rs.append('j_%s <~ get o [%s] %s' % (f.name, '; '.join('"%s"%%string' % n for n in f.names), paren(codec_of(f.type))))
    def arg(n):
        e = re.sub(r' \.', '.', to[n])
        if e == 'self.%s.unwrap_or(false)' % BETA:
            return 'match j_%s with Some b => b | None => false end' % BETA
        fixed = {'0': '(Z_to_w32 0)', 'vec![]': '[]', 'None': 'None', 'StringWithEncoding::empty()': 'swe_empty'}
        if e in fixed:
            return fixed[e]
        k = source_field(e, 'self')
        assert k in frm, (n, e)
        return 'j_' + k
    args = ['(mk%s %s)' % (rec, wrap([arg(n) for n in names], '', '           ')) for g, rec, names in groups]
    args += ['(mkGDTail %s)' % wrap([arg(n) for n in tail], '', '           '), arg('bg_enable_fss'), '(%s)' % arg(BETA)]
    with open(os.path.join(OUT, 'JsonGameData.v'), 'w') as o:
        o.write('(** The JSON form of the game data.  Generated by tools/gen_json.py from the Rust sources. *)\n')
        o.write('From Verif Require Import Base Text Biff Common Enums %s Structs GameData Json JsonItems.\n\n' % ' '.join(r for _, r in GROUPS))
        o.write('(** gamedata.rs:%s [GameDataJson]; %s [from_game_data]; %s [to_game_data] *)\n' % (jl, src.lines(b0, b1), src.lines(a0, a1)))
        o.write('Definition jc_GameData {L : json_lib} : jcodec GameData :=\n  jc_record (fun x => object\n      [%s])\n    (fun o =>\n      %s ;;\n      Ok (mkGameData\n         %s)).\n'
                % (wrap(ws, ';', '       '), wrap(rs, ' ;;', '      '), '\n         '.join(args)))
    with open(os.path.join(OUT, 'SpecJsonGameData.v'), 'w') as o:
        o.write('(** What the JSON form of the game data must keep.  Generated by tools/gen_json.py. *)\n')
        o.write('From Verif Require Import Base Text Biff Common Enums %s Structs GameData EnumsFacts SpecJson SpecJsonRecords.\n\n' % ' '.join(r for _, r in GROUPS))
        o.write('(** As for the items; the custom colours are sixteen. *)\nDefinition GameData_finite (x : GameData) : Prop :=\n  %s.\n' % wrap(conds, ' /\\', '  '))
        o.write('(** The game data without what other files hold *)\nDefinition GameData_json_part (x : GameData) : GameData :=\n  set_gd_tail (')
        left = ['materials_size', 'materials_old', 'materials_physics_old', 'materials', 'render_probes', 'gameitems_size', 'sounds_size', 'images_size', 'fonts_size', 'collections_size', 'code']
        e = 'gd_tail x'
        for n in left:
            v = '(Z_to_w32 0)' if n.endswith('_size') else '[]' if n == 'materials_old' else 'swe_empty' if n == 'code' else 'None'
            e = 'set_gt_%s %s (%s)' % (n, v, e)
        o.write(e + ') x.\n')
        o.write('Definition game_data_keys : list string := [\n  %s]%%string.\n' % wrap(['"%s"' % n for f in jf for n in f.names], ';', '  '))
    with open(os.path.join(OUT, 'JsonGameDataFacts.v'), 'w') as o:
        o.write('(** Generated by tools/gen_json.py. *)\n')
        o.write('From Verif Require Import BaseFacts Base Text Biff Common Enums %s Structs GameData EnumsFacts JsonFloat SpecJson Json SpecJsonRecords JsonFacts JsonItems\n  JsonItemsFacts JsonGameData SpecJsonGameData.\n\n' % ' '.join(r for _, r in GROUPS))
        o.write('Section Facts.\nContext {L : json_lib} (lib : lib_ok L).\n')
        o.write('Ltac game_more lib := fun _ =>\n  lazymatch goal with\n  | |- restores (jc_array _ jc_Color) _ => apply restores_array; [assumption | apply Forall_forall; intros; apply restores_Color]\n  | _ => let t := item_more lib in t tt\n  end.\n')
        o.write('Lemma json_GameData x : GameData_finite x -> jc_of jc_GameData (jc_to jc_GameData x) = Ok (GameData_json_part x).\n')
        o.write('Proof.\n  let H := fresh in intros H; unfold GameData_finite in H; repeat match goal with K : _ /\\ _ |- _ => destruct K end.\n  record lib ltac:(game_more lib).\n'
                '  destruct x as [[] [] [] [] [] [] ? []]; reflexivity.\nQed.\n')
        o.write('Lemma loose_GameData : loose game_data_keys (jc_GameData (L := L)). Proof. loose. Qed.\n')
        o.write('End Facts.\n')

def main():
    gamedata()
    items = [item(m, s) for m, s in ITEMS]
    imports = 'Base Biff Common Enums %s GameItem' % ' '.join('Item' + s for _, s in ITEMS)
    with open(os.path.join(OUT, 'JsonItems.v'), 'w') as o:
        o.write('(** The JSON forms of the game items.  Generated by tools/gen_json.py from the Rust sources. *)\n')
        o.write('From Verif Require Import %s Json.\n\nSection Items.\nContext {L : json_lib}.\n\n' % imports)
        o.write('(** The enumerations, as in Enums.v *)\n')
        for e in ENUMS:
            o.write('Definition jc_%s : jcodec %s := jc_enum %s_to_json %s_of_json.\n' % (e, e, e, e))
        o.write('\n')
        for x in items:
            o.write(definition(x) + '\n')
        o.write('End Items.\n')
    with open(os.path.join(OUT, 'SpecJsonItems.v'), 'w') as o:
        o.write('(** What the JSON form of a game item must keep.  Generated by tools/gen_json.py. *)\n')
        o.write('From Verif Require Import %s EnumsFacts SpecJson SpecJsonRecords.\n\n' % imports)
        o.write('(** The floats for which JSON has no form unless they are finite, and the codes of enumerations with a case for unknown codes,\n'
                '    which must not be those of known ones *)\n')
        for x in items:
            c = conditions(x)
            o.write('Definition %s_finite (x : %s) : Prop :=\n  %s.\n' % (x.st, x.st, wrap(c, ' /\\', '  ') if c else 'True'))
        o.write('\n(** The item without what other files hold *)\n')
        for x in items:
            o.write('Definition %s_json_part (x : %s) : %s := %s.\n' % (x.st, x.st, x.st, json_part(x)))
        keys = []
        for x in items:
            for f in x.jf:
                for k in (['is_timer_enabled', 'timer_interval'] if f.flatten else f.names):
                    if k not in keys:
                        keys.append(k)
        o.write('\n(** All keys that mean something in the JSON form of some item *)\nDefinition item_keys : list string := [\n  %s]%%string.\n'
                % wrap(['"%s"' % k for k in keys], ';', '  '))
    with open(os.path.join(OUT, 'JsonItemsFacts.v'), 'w') as o:
        o.write('(** Generated by tools/gen_json.py. *)\n')
        o.write('From Verif Require Import BaseFacts %s EnumsFacts JsonFloat SpecJson Json SpecJsonRecords JsonFacts JsonItems SpecJsonItems.\n\n' % imports)
        o.write('Section Facts.\nContext {L : json_lib} (lib : lib_ok L).\n')
        for e in ENUMS:
            h = ' %s_ok e = true ->' % e if e in PAYLOAD else ''
            o.write('Lemma restores_%s e :%s restores jc_%s e.\n' % (e, h, e))
            if e in PAYLOAD:
                o.write('Proof.\n  intros H. apply restores_enum; [exact (%s_json e H)|]. destruct e; try reflexivity. cbn [%s_to_json plain_scalar].\n'
                        '  pose proof (w32_to_Z_range n). apply andb_true_intro. lia.\nQed.\n' % (e, e))
            else:
                o.write('Proof. apply restores_enum; [apply %s_json | destruct e; reflexivity]. Qed.\n' % e)
        o.write('End Facts.\n\n')
        o.write('Ltac item_more lib := fun _ =>\n  lazymatch goal with\n')
        for c in ['Vertex2D', 'Vertex3D', 'Vertex4D', 'DragPoint']:
            o.write('  | |- restores jc_%s _ => apply (restores_%s lib); assumption\n' % (c, c))
        o.write('  | |- restores jc_FontDesc _ => apply (restores_FontDesc lib)\n')
        o.write('  | |- restores (jc_array _ jc_f32) _ => apply restores_array; [reflexivity | repeat constructor; apply (restores_f32 lib); assumption]\n')
        for e in ENUMS:
            o.write('  | |- restores jc_%s _ => apply restores_%s%s\n' % (e, e, '; assumption' if e in PAYLOAD else ''))
        o.write('  end.\n')
        o.write('Ltac item lib P := let H := fresh in intros H; unfold P in H; repeat match goal with K : _ /\\ _ |- _ => destruct K end; record lib ltac:(item_more lib).\n\n')
        o.write('Section Items.\nContext {L : json_lib} (lib : lib_ok L).\n')
        for x in items:
            o.write('Lemma json_%s x : %s_finite x -> jc_of jc_%s (jc_to jc_%s x) = Ok (%s_json_part x).\n' % (x.st, x.st, x.st, x.st, x.st))
            o.write('Proof. item lib %s_finite. destruct x; reflexivity. Qed.\n' % x.st)
        o.write('(** Only the known keys count, and their order does not. *)\n')
        for x in items:
            o.write('Lemma loose_%s : loose item_keys jc_%s. Proof. loose. Qed.\n' % (x.st, x.st))
        o.write('End Items.\n')

if __name__ == '__main__':
    main()
