"""Generates the models and proofs of Material, RenderProbe and the plain parts of GameData.

GameData has about 190 fields.  The model groups them, in the order in which they are written, into a few records;
fields with a special encoding are written by hand in theories/GameData.v."""
import re
import gen_items as G
from gen_items import *

def header(text, mod, old):
    return text.replace('tools/gen_items.py', 'tools/gen_structs.py')

def facts_imports(text, mods):
    return text.replace('From Verif Require Import Base Text Biff Quantize Common Enums ItemBase Item%s.' % mods[0],
                        'From Verif Require Import Base Text Biff Quantize Common Enums ItemBase %s.' % mods[1])

def whole(path, name):
    I = parse(None, name, path)
    mod = 'Struct' + name
    open(OUT + mod + '.v', 'w').write(header(model(I), mod, name))
    open(OUT + mod + 'Facts.v', 'w').write(facts_imports(header(facts(I), mod, name), (name, mod)))

SPECIAL_TAGS = ['EFSS', 'MASI', 'MATE', 'PHMA', 'MATR', 'RPRB', 'SEDT', 'SSND', 'SIMG', 'SFNT', 'SCOL', 'NAME', 'CCUS', 'SECB', 'CODE', 'TLCK']
SPECIAL_FIELDS = ['bg_enable_fss', 'is_10_8_0_beta1_to_beta4', 'materials_size', 'materials_old', 'materials_physics_old', 'materials',
                  'render_probes', 'gameitems_size', 'sounds_size', 'images_size', 'fonts_size', 'collections_size', 'name',
                  'custom_colors', 'protection_data', 'code', 'locked']
# the first tag of every group, in the order of the writer
GROUPS = [('GDBounds', 'LEFT'), ('GDDesktop', 'VSM0'), ('GDCabinet', 'ROTF'), ('GDPhysics', 'ORRP'), ('GDScene', 'GLAS')]

def gamedata():
    I = Item()
    path = 'gamedata.rs'
    src = Src(REPO + path)
    I.src, I.file, I.name, I.path = src, None, 'GameData', path
    I.special = {k: 1 for k in SPECIAL_TAGS + SPECIAL_FIELDS}
    I.macro = -1
    parse_fields(I)
    parse_default(I)
    I.fallback_lines = 'let data = reader.get_record_data(false); warn!("unhandled gamedata tag {} {} bytes", other, data.len())'
    a, e, body, off = src.block(r'pub fn read_all_gamedata_records\([^)]*\)\s*->\s*GameData\s*\{')
    I.read_lines = src.lines(a, e)
    parse_reader(I, body, off)
    a, e, body, off = src.block(r'pub fn write_all_gamedata_records\([^)]*\)\s*->\s*Vec<u8>\s*\{')
    I.write_lines = src.lines(a, e)
    text = squash(body).replace('&gamedata.', '&self.').replace('gamedata.', 'self.')
    # the hand-written parts
    head = 'let mut writer = BiffWriter::new(); '
    assert text.startswith(head), text[:100]
    text = text[len(head):]
    efss1 = 'if version.u32() >= 1080 && !self.is_10_8_0_beta1_to_beta4 && let Some(efss) = self.bg_enable_fss { writer.write_tagged_bool("EFSS", efss); } '
    efss2 = 'if (version.u32() < 1080 || self.is_10_8_0_beta1_to_beta4) && let Some(efss) = self.bg_enable_fss { writer.write_tagged_bool("EFSS", efss); } '
    assert text.count(efss1) == 1 and text.count(efss2) == 1
    text = text.replace(efss1, '').replace(efss2, '')
    k = text.index('writer.write_tagged_u32("MASI"')
    I.tail_text = text[k:]
    text = text[:k]
    I.ops = []
    while text.strip():
        op, text = stmt(I, text.strip().lstrip('; '))
        I.ops.append(op)
    # groups
    starts = [t for _, t in GROUPS]
    gs, cur = [], None
    for op in I.ops:
        if op[1] in starts:
            cur = []
            gs.append(cur)
        cur.append(op)
    assert len(gs) == len(GROUPS)
    seen = []
    for (name, _), ops in zip(GROUPS, gs):
        J = Item()
        J.src, J.file, J.name, J.path, J.macro = src, None, name, path, -1
        J.struct_lines, J.default_lines, J.read_lines, J.write_lines = I.struct_lines, I.default_lines, I.read_lines, I.write_lines
        J.array, J.init = {}, {}
        fs = [op[3] for op in ops]
        J.fields = [(f, I.ty[f]) for f in fs]
        J.ty = dict(J.fields)
        J.default = {f: I.default[f] for f in fs}
        J.arms = [a for a in I.arms if a[2] and a[2][0] in fs]
        assert len(J.arms) == len(fs) and sorted(a[2][0] for a in J.arms) == sorted(fs)
        for op in ops:
            a = [a for a in J.arms if a[2][0] == op[3]][0]
            assert a[0] == op[1], (a, op)       # the tag that is read is the tag that is written
        J.fallback = (False, False)
        J.ops = ops + [('skip',)]
        seen += fs
        open(OUT + name + '.v', 'w').write(group_model(J, ops))
        open(OUT + name + 'Facts.v', 'w').write(group_facts(J))
    rest = [f for f, _ in I.fields if f not in seen]
    assert set(re.sub(r'_\d+$', '', f) if f.startswith('custom_colors') else f for f in rest) == set(SPECIAL_FIELDS), rest
    assert len(I.arms) == len(seen)

def group_model(J, ops):
    X = J.name
    t = header(model(J), X, X)
    t = t.replace('(** gamedata.rs:%s *)\nRecord' % J.struct_lines,
                  '(** The fields of [GameData] (gamedata.rs:%s) that are written from record %s to record %s. *)\nRecord' % (J.struct_lines, ops[0][1], ops[-1][1]))
    t = t.replace('(** gamedata.rs:%s *)\nDefinition %s_write' % (J.write_lines, X),
                  '(** gamedata.rs:%s, the part from %s to %s (EFSS excepted) *)\nDefinition %s_write' % (J.write_lines, ops[0][1], ops[-1][1], X))
    i = t.index('Definition %s_init' % X)
    j = t.index('(** gamedata.rs:%s, the part' % J.write_lines)
    t = t[:i] + t[j:]
    # the write chain ends without ENDB
    assert t.rstrip().endswith('.')
    t = t.rstrip()[:-1] + ' >>>\n  wskip.\n'
    return t

def group_facts(J):
    X = J.name
    t = facts_imports(header(facts(J), X, X), (X, X))
    t = t.replace('EnumsFacts ItemBaseFacts.', 'EnumsFacts ItemBaseFacts StructBaseFacts.')
    t = t.replace('[%s_read]' % X, '[%s_arms]' % X)
    t = t.replace('%s_init' % X, '%s_default' % X)
    t = t.replace('(enc (%s_recs v ++ [endb]))' % X, '(enc (%s_recs v))' % X)
    t = t.replace('apply wapp_close.\nQed.', 'apply wapp_wskip.\nQed.')
    i = t.index('Lemma %s_roundtrip' % X)
    j = t.index('Lemma %s_term' % X)
    t = t[:i] + t[j:]
    t = t.replace('Lemma %s_term : Term %s_read.' % (X, X), 'Lemma %s_term : Forall ArmTerm %s_arms.' % (X, X))
    t = t.replace('apply Term_read_arms. ', '')
    t = t.replace('Lemma %s_yields : Yields %s_read (fun v => %s_ok v = true).' % (X, X, X), 'Lemma %s_yields : Forall (ArmYields (fun v => %s_ok v = true)) %s_arms.' % (X, X, X))
    t = t.replace('  apply Yields_read_arms; [|reflexivity]. unfold', '  unfold')
    t += 'Lemma %s_tags v : forallb (fun r => tag_known %s_arms (rec_tag r)) (%s_recs v) = true.\n' % (X, X, X)
    t += 'Proof. unfold %s_recs. tags_in. Qed.\n' % X
    return t

if __name__ == '__main__':
    whole('material.rs', 'Material')
    whole('renderprobe.rs', 'RenderProbe')
    gamedata()
