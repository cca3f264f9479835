"""Generates theories/Enums.v and EnumsFacts.v from the enum conversions in the Rust sources."""
import re, sys
from rustsrc import *
REPO = '/repo/src/vpx/'
OUT = '/verif/rocq/theories/'
ENUMS = [  # file, enum, integer type
    ('gameitem/decal.rs', 'DecalType', 'u32'), ('gameitem/decal.rs', 'SizingType', 'u32'),
    ('gameitem/flasher.rs', 'Filter', 'u32'), ('gameitem/flasher.rs', 'RenderMode', 'u32'),
    ('gameitem/flasher.rs', 'DmdStyle', 'u32'), ('gameitem/flasher.rs', 'DisplayStyle', 'u32'),
    ('gameitem/flasher.rs', 'SegStyle', 'u32'), ('gameitem/flasher.rs', 'SegFamily', 'u32'),
    ('gameitem/gate.rs', 'GateType', 'u32'), ('gameitem/hittarget.rs', 'TargetType', 'u32'),
    ('gameitem/kicker.rs', 'KickerType', 'u32'), ('gameitem/light.rs', 'ShadowMode', 'u32'),
    ('gameitem/light.rs', 'Fader', 'u32'), ('gameitem/partgroup.rs', 'VisibilityMask', 'u32'),
    ('gameitem/partgroup.rs', 'SpaceReference', 'u32'), ('gameitem/plunger.rs', 'PlungerType', 'u32'),
    ('gameitem/ramp.rs', 'RampType', 'u32'), ('gameitem/ramp_image_alignment.rs', 'RampImageAlignment', 'u32'),
    ('gameitem/textbox.rs', 'TextAlignment', 'u32'), ('gameitem/trigger.rs', 'TriggerShape', 'u32'),
    ('gamedata.rs', 'ViewLayoutMode', 'u32'), ('gamedata.rs', 'ToneMapper', 'u32'),
    ('material.rs', 'MaterialType', 'i32'), ('renderprobe.rs', 'RenderProbeType', 'u32'),
    ('renderprobe.rs', 'ReflectionMode', 'u32'), ('sound.rs', 'OutputTarget', 'u8')]

def num(s):
    n = int(s, 0)
    return n if n >= 0 else n + 2 ** 32  # two's complement i32

class Enum:
    pass

def arms_of(src, regex, within=None):
    """arms of the first match expression in the block found by regex"""
    b = src.block(regex)
    if not b:
        return None
    a, e, body, off = b
    m = re.search(r'match [^{]*\{', body)
    if not m:
        return src.lines(a, e), None, body
    i = m.end() - 1
    j = match_brace(body, i)
    return src.lines(a, e), match_arms(body[i + 1:j]), body

def parse(file, name, ity):
    src = Src(REPO + file)
    E = Enum()
    E.file, E.name, E.ity = file, name, ity
    a, b, body, _ = src.block(r'enum %s\s*\{' % name)
    E.lines = src.lines(a, b)
    E.variants = []
    disc = {}
    nxt = 0
    for v in split_top(body):
        v = squash(re.sub(r'#\[[^\]]*\]', '', v))
        m = re.match(r'^([A-Za-z0-9_]+)(\([a-z0-9]+\))?(?: = (\S+))?$', v)
        assert m, v
        E.variants.append((m.group(1), m.group(2) is not None))
        if m.group(3):
            nxt = num(m.group(3))
        disc[m.group(1)] = nxt
        nxt += 1
    # from integer
    E.of_lines, arms, _ = arms_of(src, r'impl From<%s> for %s\s*\{' % (ity, name))
    E.of = []
    E.of_default = None
    for pat, rhs, _ in arms:
        m = re.match(r'^(?:%s|Self)::([A-Za-z0-9_]+)$' % name, rhs)
        mu = re.match(r'^(?:%s|Self)::([A-Za-z0-9_]+)\(([a-z]+)\)$' % name, rhs)
        if re.match(r'^-?(0x)?[0-9a-fA-F]+$', pat):
            assert m, (pat, rhs)
            E.of.append((num(pat), m.group(1)))
        elif mu:
            E.of_default = ('payload', mu.group(1))
        elif rhs.startswith('panic!'):
            E.of_default = ('panic',)
        elif m:
            E.of_default = ('variant', m.group(1))
        else:
            raise Exception((name, pat, rhs))
    # to integer
    E.to_lines, arms, body = arms_of(src, r'impl From<&?%s> for %s\s*\{' % (name, ity))
    E.to = []
    if arms is None:
        assert 'value as ' + ity in body, (name, body)
        E.to = [(v, disc[v]) for v, _ in E.variants]
    else:
        for pat, rhs, _ in arms:
            m = re.match(r'^(?:%s|Self)::([A-Za-z0-9_]+)(\(([a-z]+)\))?$' % name, pat)
            assert m, pat
            if m.group(2):
                assert rhs.strip('*') == m.group(3)
                E.to.append((m.group(1), None))
            else:
                E.to.append((m.group(1), num(rhs)))
    # JSON
    r = arms_of(src, r'impl Serialize for %s\s*\{' % name)
    E.ser = None
    if r:
        E.ser_lines, arms, body = r
        E.ser = []
        for pat, rhs, _ in arms:
            m = re.match(r'^(?:%s|Self)::([A-Za-z0-9_]+)(\([a-z]+\))?$' % name, pat)
            assert m, pat
            if m.group(2):
                assert re.search(r'serialize_u32\(\*[a-z]+\)', rhs), rhs
                E.ser.append((m.group(1), None))
            else:
                s = re.search(r'"([^"]*)"', rhs)
                assert s, rhs
                E.ser.append((m.group(1), s.group(1)))
        b = src.block(r"impl<'de> Deserialize<'de> for %s\s*\{" % name)
        a, e, body, _ = b
        E.de_lines = src.lines(a, e)
        E.value_style = 'Value::Number' in body
        E.lower = 'value.to_lowercase()' in body
        strs, nums = [], []
        E.de_num_of = None
        for m in re.finditer(r'"([^"]*)"\s*=>\s*Ok\((?:%s|Self)::([A-Za-z0-9_]+)\)' % name, body):
            strs.append((m.group(1), m.group(2)))
        for m in re.finditer(r'\b([0-9]+)\s*=>\s*Ok\((?:%s|Self)::([A-Za-z0-9_]+)\)' % name, body):
            nums.append((num(m.group(1)), m.group(2)))
        if not nums:
            if re.search(r'Ok\(%s::from\(value\)\)|Ok\(val\.into\(\)\)' % name, body):
                E.de_num_of = 'try_u32'
            elif 'visit_u64' in body or E.value_style:
                raise Exception(('nums', name, body))
        else:
            # any other number is an error
            pass
        E.has_num = bool(nums) or E.de_num_of is not None
        E.de_str, E.de_num = strs, nums
        E.body = body
    return E

WT = {'u32': ('u32', 'w32_to_Z', 'Z_to_w32'), 'i32': ('i32', 'w32_to_Z', 'Z_to_w32'), 'u8': ('byte', 'byte_to_Z', 'Z_to_byte')}

def con(E, v):
    return f'{E.name}_{v}'

def props(es):
    """PropertiesEnums.v: the statements of C41."""
    def conj(names):
        return names[0] if len(names) == 1 else f'(conj {names[0]} {conj(names[1:])})'
    def thm(name, doc, parts, names):
        return f'(** {doc} *)\nTheorem {name} :\n  ' + '\n  /\\ '.join(f'({p})' for p in parts) + f'.\nProof. exact {conj(names)}. Qed.\nPrint Assumptions {name}.\n'
    o = ['(** C41: enumerations stored as integers and in JSON.  Generated by tools/gen_enums.py. *)',
         'From Verif Require Import Base Enums BaseFacts EnumsFacts.', '']
    plain = [E for E in es if not any(p for _, p in E.variants)]
    pay = [E for E in es if any(p for _, p in E.variants)]
    o.append(thm('C41_values_read_back', 'Every value of every enumeration without an "unknown" payload reads back from the integer it is written as.',
                 [f'forall e : {E.name}, {E.name}_of_{E.ity} ({E.name}_to_{E.ity} e) = Ok e' for E in plain],
                 [f'{E.name}_roundtrip' for E in plain]))
    o.append(thm('C41_known_codes_keep_their_integer', 'Every integer an enumeration knows is accepted and written back unchanged.',
                 [f'forall x, In ({WT[E.ity][1]} x) {E.codes} -> exists e, {E.name}_of_{E.ity} x = Ok e /\\ {E.name}_to_{E.ity} e = x' for E in es],
                 [f'{E.name}_known' for E in es]))
    rej = [E for E in es if E.of_default[0] == 'panic']
    fb = [E for E in es if E.of_default[0] == 'variant']
    o.append(thm('C41_unknown_codes_rejected', 'Every other integer is rejected (the conversion panics) by these enumerations.',
                 [f'forall x, ~ In ({WT[E.ity][1]} x) {E.codes} -> {E.name}_of_{E.ity} x = Panic' for E in rej],
                 [f'{E.name}_unknown' for E in rej]))
    o.append(thm('C41_unknown_codes_fallback', 'Every other integer becomes the fallback value here.',
                 [f'forall x, ~ In ({WT[E.ity][1]} x) {E.codes} -> {E.name}_of_{E.ity} x = Ok {con(E, E.of_default[1])}' for E in fb],
                 [f'{E.name}_unknown' for E in fb]))
    for E in pay:
        T, toZ, _ = WT[E.ity]
        u = con(E, E.of_default[1])
        o.append(f'''(** {E.name} keeps unknown integers: whatever integer is read is the integer written back. *)
Theorem C41_{E.name}_preserves_every_integer :
  forall x : {T}, exists e, {E.name}_of_{E.ity} x = Ok e /\\ {E.name}_to_{E.ity} e = x.
Proof. exact {E.name}_preserves. Qed.
Print Assumptions C41_{E.name}_preserves_every_integer.

(** Its values read back, provided the payload of [{E.of_default[1]}] is not one of the known integers ... *)
Theorem C41_{E.name}_values_read_back :
  forall e : {E.name}, (forall n, e = {u} n -> ~ In ({toZ} n) {E.codes}) -> {E.name}_of_{E.ity} ({E.name}_to_{E.ity} e) = Ok e.
Proof. exact {E.name}_values. Qed.
Print Assumptions C41_{E.name}_values_read_back.

(** ... and without that proviso they do not: a value built by hand changes. *)
Theorem C41_{E.name}_values_read_back_refuted :
  exists e : {E.name}, {E.name}_of_{E.ity} ({E.name}_to_{E.ity} e) <> Ok e.
Proof. exact {E.name}_values_refuted. Qed.
Print Assumptions C41_{E.name}_values_read_back_refuted.
''')
    js = [E for E in plain if E.ser is not None]
    o.append(thm('C41_json_values_read_back', 'Every value reads back from its JSON form.',
                 [f'forall e : {E.name}, {E.name}_of_json ({E.name}_to_json e) = Ok e' for E in js],
                 [f'{E.name}_json' for E in js]))
    o.append('''(** The hypotheses are met: a known and an unknown integer. *)
Example C41_known_example : In (w32_to_Z (Z_to_w32 2)) [0; 1; 2; 3; 4; 5; 6] /\\ ~ In (w32_to_Z (Z_to_w32 7)) [0; 1; 2; 3; 4; 5; 6].
Proof. split; vm_compute; [tauto|]. intros H; repeat destruct H as [H|H]; try discriminate H; exact H. Qed.
Example C41_payload_example : GateType_of_u32 (Z_to_w32 77) = Ok (GateType_Unknown (Z_to_w32 77)).
Proof. reflexivity. Qed.
''')
    open(OUT + 'PropertiesEnums.v', 'w').write('\n'.join(o))

def emit():
    es = [parse(*x) for x in ENUMS]
    post = []
    o = ['''(** Enumerations and their integer and JSON encodings.  Generated by tools/gen_enums.py from the Rust sources.

    [X_of_u32] models [From<u32> for X] ([panic!] is [Panic]), [X_to_u32] models [From<&X> for u32].
    [X_to_json] models [Serialize], [X_of_json] models [Deserialize], on the JSON scalars below. *)
From Verif Require Import Base.

(** A JSON value as seen by the enumeration deserializers: a string, a number that is a u64, any other number,
    anything else. *)
Inductive jscalar : Type := JStr (s : string) | JU64 (n : Z) | JNum | JOther.

(** [str::to_lowercase] on ASCII *)
Fixpoint ascii_lower (s : string) : string :=
  match s with
  | EmptyString => EmptyString
  | String c s' =>
      let n := Ascii.nat_of_ascii c in
      String (if (65 <=? n)%nat && (n <=? 90)%nat then Ascii.ascii_of_nat (n + 32) else c) (ascii_lower s')
  end.
''']
    f = ['''(** Facts about the enumerations.  Generated by tools/gen_enums.py. *)
From Verif Require Import Base Enums BaseFacts.
''']
    for E in es:
        T, toZ, ofZ = WT[E.ity]
        x = E.file
        o.append(f'(** {x}:{E.lines} *)')
        o.append(f'Inductive {E.name} : Type := ' + ' | '.join(con(E, v) + (' (n : u32)' if p else '') for v, p in E.variants) + '.')
        o.append(f'(** {x}:{E.of_lines} *)')
        o.append(f'Definition {E.name}_of_{E.ity} (x : {T}) : res {E.name} :=\n  let z := {toZ} x in')
        for n, v in E.of:
            o.append(f'  if z =? {n} then Ok {con(E, v)} else')
        d = E.of_default
        o.append('  ' + ('Panic' if d[0] == 'panic' else f'Ok {con(E, d[1])}' if d[0] == 'variant' else f'Ok ({con(E, d[1])} x)') + '.')
        o.append(f'(** {x}:{E.to_lines} *)')
        o.append(f'Definition {E.name}_to_{E.ity} (e : {E.name}) : {T} :=\n  match e with')
        for v, n in E.to:
            o.append(f'  | {con(E, v)} n => n' if n is None else f'  | {con(E, v)} => {ofZ} {n}')
        o.append('  end.')
        payload = any(p for _, p in E.variants)
        f.append(f'(** {E.name} *)')
        if payload:
            o.append(f'(** The values that [{E.name}_of_{E.ity}] produces: [Unknown] is only used for other codes. *)')
            up = [v for v, p in E.variants if p][0]
            o.append(f'Definition {E.name}_ok (e : {E.name}) : bool :=\n  match e with {con(E, up)} n => negb (existsb (Z.eqb ({toZ} n)) [' + '; '.join(str(n) for n, _ in E.of) + ']) | _ => true end.')
            f.append(f'''Lemma {E.name}_roundtrip e : {E.name}_ok e = true -> {E.name}_of_{E.ity} ({E.name}_to_{E.ity} e) = Ok e.
Proof.
  destruct e; try (intros; reflexivity). cbn [{E.name}_ok {E.name}_to_{E.ity} existsb]. intros H.
  unfold {E.name}_of_{E.ity}. cbv zeta. repeat (destruct (_ =? _); [discriminate|]). reflexivity.
Qed.
Lemma {E.name}_of_ok x e : {E.name}_of_{E.ity} x = Ok e -> {E.name}_ok e = true.
Proof.
  unfold {E.name}_of_{E.ity}. cbv zeta.
  repeat match goal with |- context [if ?c then _ else _] => destruct c eqn:? end; intros H; injection H as <-; try reflexivity.
  cbn [{E.name}_ok existsb]. repeat match goal with H : (_ =? _) = false |- _ => rewrite H; clear H end. reflexivity.
Qed.''')
        else:
            f.append(f'''Lemma {E.name}_roundtrip e : {E.name}_of_{E.ity} ({E.name}_to_{E.ity} e) = Ok e.
Proof. destruct e; reflexivity. Qed.''')
        f.append(f'''Lemma {E.name}_no_oof x : {E.name}_of_{E.ity} x <> OutOfFuel.
Proof.
  unfold {E.name}_of_{E.ity}. cbv zeta. repeat match goal with |- context [if ?c then _ else _] => destruct c end; discriminate.
Qed.
#[export] Hint Resolve {E.name}_no_oof : core.''')
        if payload:
            codes0 = '[' + '; '.join(str(n) for n, _ in E.of) + ']'
            u = con(E, E.of_default[1])
            post.append(f'''Lemma {E.name}_preserves (x : {T}) : exists e, {E.name}_of_{E.ity} x = Ok e /\\ {E.name}_to_{E.ity} e = x.
Proof.
  destruct (in_dec Z.eq_dec ({toZ} x) {codes0}) as [H|H]; [exact ({E.name}_known x H)|].
  rewrite ({E.name}_unknown x H). eexists. split; reflexivity.
Qed.
Lemma {E.name}_values (e : {E.name}) : (forall n, e = {u} n -> ~ In ({toZ} n) {codes0}) -> {E.name}_of_{E.ity} ({E.name}_to_{E.ity} e) = Ok e.
Proof.
  intros H. destruct e as [{'| ' * ([v for v, _ in E.variants].index(E.of_default[1]))}n]; try reflexivity. apply ({E.name}_unknown n), (H n eq_refl).
Qed.
Lemma {E.name}_values_refuted : exists e : {E.name}, {E.name}_of_{E.ity} ({E.name}_to_{E.ity} e) <> Ok e.
Proof. exists ({u} (Z_to_w32 {E.of[0][0]})). discriminate. Qed.''')
        codes = '[' + '; '.join(str(n) for n, _ in E.of) + ']'
        E.codes = codes
        inv = {'u32': 'Z_to_w32_to_Z', 'i32': 'Z_to_w32_to_Z', 'u8': 'Z_to_byte_to_Z'}[E.ity]
        unk = 'Panic' if d[0] == 'panic' else f'Ok {con(E, d[1])}' if d[0] == 'variant' else f'Ok ({con(E, d[1])} x)'
        f.append(f'''Lemma {E.name}_unknown x : ~ In ({toZ} x) {codes} -> {E.name}_of_{E.ity} x = {unk}.
Proof.
  intros H. unfold {E.name}_of_{E.ity}. cbv zeta.
  repeat match goal with |- context [if ?c then _ else _] => destruct c eqn:?; [exfalso; apply H; cbn [In]; lia|] end; reflexivity.
Qed.
Lemma {E.name}_known x : In ({toZ} x) {codes} -> exists e, {E.name}_of_{E.ity} x = Ok e /\\ {E.name}_to_{E.ity} e = x.
Proof.
  intros H. unfold {E.name}_of_{E.ity}. cbv zeta.
  repeat match goal with |- context [if ?c then _ else _] => destruct c eqn:?;
    [eexists; split; [reflexivity|]; rewrite <- ({inv} x); cbn [{E.name}_to_{E.ity}]; f_equal; lia|] end.
  exfalso. cbn [In] in H. lia.
Qed.''')
        if E.ser is not None:
            o.append(f'(** {x}:{E.ser_lines} *)')
            o.append(f'Definition {E.name}_to_json (e : {E.name}) : jscalar :=\n  match e with')
            for v, s in E.ser:
                o.append(f'  | {con(E, v)} n => JU64 ({toZ} n)' if s is None else f'  | {con(E, v)} => JStr "{s}"')
            o.append('  end.')
            note = ' ([as_u64().unwrap()] panics on other numbers)' if E.value_style else ' ([to_lowercase] is modelled on ASCII only)' if E.lower else ''
            o.append(f'(** {x}:{E.de_lines}{note} *)')
            o.append(f'Definition {E.name}_of_json (j : jscalar) : res {E.name} :=\n  match j with\n  | JStr s0 => let s := ' + ('ascii_lower s0' if E.lower else 's0') + ' in')
            for s, v in E.de_str:
                o.append(f'      if (s =? "{s}")%string then Ok {con(E, v)} else')
            o.append('      Err')
            if E.has_num:
                o.append('  | JU64 z =>')
                if E.de_num_of:
                    o.append(f'      if z <? 4294967296 then {E.name}_of_{E.ity} ({ofZ} z) else Err')
                else:
                    for n, v in E.de_num:
                        o.append(f'      if z =? {n} then Ok {con(E, v)} else')
                    o.append('      Err')
            if E.value_style:
                o.append('  | JNum => Panic')
            o.append('  | _ => Err\n  end.')
            if payload:
                f.append(f'''Lemma {E.name}_json e : {E.name}_ok e = true -> {E.name}_of_json ({E.name}_to_json e) = Ok e.
Proof.
  intros H. destruct e; try reflexivity. cbn [{E.name}_to_json {E.name}_of_json].
  pose proof (w32_to_Z_range n). replace (w32_to_Z n <? 4294967296) with true by lia.
  rewrite Z_to_w32_to_Z. apply ({E.name}_roundtrip _ H).
Qed.''')
            else:
                f.append(f'''Lemma {E.name}_json e : {E.name}_of_json ({E.name}_to_json e) = Ok e.
Proof. destruct e; reflexivity. Qed.''')
        o.append('')
        f.append('')
    f += post
    props(es)
    open(OUT + 'Enums.v', 'w').write('\n'.join(o))
    open(OUT + 'EnumsFacts.v', 'w').write('\n'.join(f))
    return es

if __name__ == '__main__':
    es = emit()
