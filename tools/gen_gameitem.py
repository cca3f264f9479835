#!/usr/bin/env python3
"""Generates theories/GameItem.v and theories/GameItemFacts.v from src/vpx/gameitem.rs.

Every match arm of the Rust functions is looked up in the source text; an arm that is not of one of the expected
shapes stops the generator.
"""
import re, os
SRC = '/repo/src/vpx/gameitem.rs'
OUT = os.path.join(os.path.dirname(__file__), '..', 'rocq', 'theories')
text = open(SRC).read()
KINDS = re.findall(r'^    (\w+)\(\w+::\w+\),$', text[text.index('pub enum GameItemEnum'):text.index('impl GameItemEnum')], re.M)
assert len(KINDS) == 21, KINDS

def func(name):
    m = re.search(r'fn %s(<[^(]*>)?\(' % name, text)
    i = text.index('{', text.index(')', m.end()))
    d, j = 0, i
    while True:
        if text[j] == '{': d += 1
        if text[j] == '}':
            d -= 1
            if d == 0: break
        j += 1
    l0 = text.count('\n', 0, m.start()) + 1
    l1 = text.count('\n', 0, j) + 1
    return text[i + 1:j], '%d-%d' % (l0, l1)

def arms(name):
    body, lines = func(name)
    flat = re.sub(r'\s+', ' ', re.sub(r'//.*', '', body))
    out = {}
    ps = [(m.start(), m) for m in re.finditer(r'GameItemEnum::(\w+)\(([^)]*)\) => ', flat)]
    for k, (p, m) in enumerate(ps):
        e = ps[k + 1][0] if k + 1 < len(ps) else len(flat)
        out[m.group(1)] = (m.group(2), flat[m.end():e].strip().rstrip('}').strip().rstrip(',').strip())
    return out, lines

def arm_simple(name, k, exp):
    var, e = exp
    return e

def accessor(name, fld, wrap, missing, generic):
    """reads field fld"""
    a, lines = arms(name)
    res = []
    for k in KINDS:
        var, e = a[k]
        e2 = e.replace('{', '').replace('}', '').strip()
        shapes = {'%s.%s' % (var, fld): 'f', '&%s.%s' % (var, fld): 'f', '%s.%s()' % (var, fld): 'f',
                  'Some(%s.%s)' % (var, fld): 's', 'Some(%s.%s())' % (var, fld): 's',
                  '%s.%s.as_deref()' % (var, fld): 'f', 'None': 'n'}
        assert e2 in shapes, (name, k, e)
        s = shapes[e2]
        res.append((k, {'f': '%s_%s v' % (k, fld), 's': 'Some (%s_%s v)' % (k, fld), 'n': 'None'}[s]))
    return res, lines

def emit_match(sig, res, generic):
    o = ['Definition %s :=' % sig, '  match i with']
    for k, e in res:
        o.append('  | GI_%s v => %s' % (k, e) if ' v' in e + ' ' and re.search(r'\bv\b', e) else '  | GI_%s _ => %s' % (k, e))
    o.append('  | GI_Generic t g => %s' % generic if re.search(r'\b[tg]\b', generic) else '  | GI_Generic _ _ => %s' % generic)
    o.append('  end.')
    return '\n'.join(o)

o = []
o.append('''(** Generated by tools/gen_gameitem.py from src/vpx/gameitem.rs and src/vpx/gameitem/generic.rs. *)
From Verif Require Import Base Text Biff Quantize Common Enums ItemBase.
From Verif Require Import %s.
From Coq Require Import DecimalString.
''' % ' '.join('Item' + k for k in KINDS))
o.append('''(** gameitem/generic.rs:10-13 *)
Record Generic : Type := mkGeneric { Generic_name : rstring; Generic_fields : list (string * bytes) }.
(** gameitem/generic.rs:64-72: the body of the record loop *)
Definition Generic_handler (t : string) (s : Generic) : rd_M Generic :=
  if (t =? "NAME")%string then x <- get_wide_string ;; rret (mkGeneric x (Generic_fields s))
  else d <- get_record_data false ;; rret (mkGeneric (Generic_name s) (Generic_fields s ++ [(t, d)])).
(** gameitem/generic.rs:53-76 *)
Definition Generic_read : rd_M Generic := run_loop Generic_handler (mkGeneric [] []).
''')
ln = text.count('\n', 0, text.index('pub enum GameItemEnum')) + 1
o.append('(** gameitem.rs:%d-%d *)' % (ln, ln + 23))
o.append('Inductive GameItem : Type :=')
for k in KINDS: o.append('| GI_%s (v : %s)' % (k, k))
o.append('| GI_Generic (t : u32) (g : Generic).\n')
consts = dict((n, int(v, 0)) for n, v in re.findall(r'^const (ITEM_TYPE_\w+): u32 = (\w+);', text, re.M))
body, lines = func('read')
flat = re.sub(r'\s+', ' ', body)
rd = re.findall(r'(ITEM_TYPE_\w+) => (panic!|\{? ?GameItemEnum::(\w+)\((\w+)::(\w+)::biff_read\(&mut reader\)\))', flat)
o.append('(** gameitem.rs:%s *)' % lines)
o.append('Definition GameItem_read : rd_M GameItem :=')
o.append('  t <- get_u32_no_remaining_update ;;')
o.append('  let z := w32_to_Z t in')
seen = []
rtype = {}
for c, e, k, m, k2 in rd:
    if e == 'panic!':
        o.append('  if z =? %d then rpanic else' % consts[c])
    else:
        assert k == k2
        seen.append(k); rtype[k] = consts[c]
        o.append('  if z =? %d then v <- %s_read ;; rret (GI_%s v) else' % (consts[c], k, k))
assert sorted(seen) == sorted(KINDS)
o.append('  g <- Generic_read ;; rret (GI_Generic t g).')
o.append('''Definition gameitem_read (checked : bool) (input : bytes) : res GameItem :=
  match GameItem_read (rd_new checked input) with Ok (i, _) => Ok i | Fail f => Fail f end.
''')
body, lines = func('write_with_type')
o.append('(** gameitem.rs:%s *)' % lines.replace('-', '-'))
o.append('Definition write_with_type (t : Z) (m : wr_M) : res bytes := run_writer (write_u32 (Z_to_w32 t) >>> m).')
i = text.index('pub(crate) fn write(')
l0 = text.count('\n', 0, i) + 1
seg = text[i:text.index('fn write_with_type')]
l1 = l0 + seg.rstrip().count('\n')
wr = re.findall(r'GameItemEnum::(\w+)\((\w+)\) => \{? ?write_with_type\((ITEM_TYPE_\w+), (\w+)\)', re.sub(r'\s+', ' ', seg))
wtype = {}
o.append('(** gameitem.rs:%d-%d; [unimplemented!] is a panic *)' % (l0, l1))
o.append('Definition gameitem_write (i : GameItem) : res bytes :=\n  match i with')
for k, v, c, v2 in wr:
    assert v == v2
    wtype[k] = consts[c]
    o.append('  | GI_%s v => write_with_type %d (%s_write v)' % (k, consts[c], k))
assert sorted(wtype) == sorted(KINDS)
o.append('  | GI_Generic _ _ => Panic\n  end.\n')

for name, fld, ty, gen in [('editor_layer_visibility', 'editor_layer_visibility', 'option bool', 'None'),
                           ('editor_layer_name', 'editor_layer_name', 'option rstring', 'None'),
                           ('editor_layer', 'editor_layer', 'option u32', 'None'),
                           ('is_locked', 'is_locked', 'option bool', 'None'),
                           ('part_group_name', 'part_group_name', 'option rstring', 'None'),
                           ('name', 'name', 'rstring', 'Generic_name g')]:
    # `name` and `is_locked` also occur in the trait: take the impl version
    res, lines = accessor(name + (r'\(&self\) -> &str \{\s*match' if False else ''), fld, None, None, gen) if name != 'name' else (None, None)
    if name == 'name':
        i = text.index('pub fn name(&self)')
        save = text
        text = text[:0] + ('\n' * text.count('\n', 0, i)) + text[i:]
        res, lines = accessor('name', fld, None, None, gen)
        text = save
    o.append('(** gameitem.rs:%s *)' % lines)
    o.append(emit_match('GI_%s (i : GameItem) : %s' % (name, ty), res, gen) + '\n')

# setters
def setter(name, fld, arg, ty):
    a, lines = arms(name)
    o.append('(** gameitem.rs:%s *)' % lines)
    o.append('Definition GI_%s (x : %s) (i : GameItem) : GameItem :=\n  match i with' % (name, ty))
    for k in KINDS:
        var, e = a[k]
        e2 = re.sub(r'[{}]', '', e).strip().rstrip(';').strip()
        if e2 == '%s.%s = %s' % (var, fld, arg):
            o.append('  | GI_%s v => GI_%s (set_%s_%s x v)' % (k, k, k, fld))
        elif re.sub(r'\s+', ' ', e2) == 'if let Some(%s) = %s %s.%s = %s' % (arg, arg, var, fld, arg) or \
             re.sub(r'\s+', ' ', e2).rstrip(';') == 'if let Some(%s) = %s %s.%s = %s;' % (arg, arg, var, fld, arg):
            o.append('  | GI_%s v => GI_%s (match x with Some b => set_%s_%s b v | None => v end)' % (k, k, k, fld))
        elif e2 == '':
            o.append('  | GI_%s v => GI_%s v' % (k, k))
        else:
            raise Exception((name, k, e))
    assert re.sub(r'[{} ]', '', a['Generic'][1]) == '', a['Generic']
    o.append('  | GI_Generic t g => GI_Generic t g\n  end.\n')
setter('set_locked', 'is_locked', 'locked', 'option bool')
setter('set_editor_layer', 'editor_layer', 'editor_layer', 'option u32')
setter('set_editor_layer_name', 'editor_layer_name', 'editor_layer_name', 'option rstring')
setter('set_editor_layer_visibility', 'editor_layer_visibility', 'editor_layer_visibility', 'option bool')

a, lines = arms('type_name')
o.append('(** [format!("{n}")] of an unsigned integer *)')
o.append('Definition dec (n : Z) : rstring := lit (NilZero.string_of_uint (N.to_uint (Z.to_N n))).')
o.append('(** gameitem.rs:%s *)' % lines)
o.append('Definition GI_type_name (i : GameItem) : rstring :=\n  match i with')
for k in KINDS:
    m = re.match(r'"(\w+)"\.to_string\(\)', a[k][1]); assert m, a[k]
    o.append('  | GI_%s _ => lit "%s"' % (k, m.group(1)))
assert 'format!("Generic_{item_type}"' in a['Generic'][1], a['Generic']
o.append('  | GI_Generic t _ => lit "Generic_" ++ dec (w32_to_Z t)\n  end.\n')
body, lines = func('type_id')
o.append('(** gameitem.rs:%s; [unimplemented!] is a panic *)' % lines)
o.append('Definition GI_type_ids : list (string * Z) :=\n  [ %s ]%%string.' % '; '.join('("%s", %d)' % (n, consts[c]) for n, c in re.findall(r'"(\w+)" => (ITEM_TYPE_\w+)', body)))
o.append('Definition rstring_eqb (a b : rstring) : bool := if list_eq_dec N.eq_dec a b then true else false.')
o.append('''Fixpoint lookup_lit {A} (s : rstring) (l : list (string * A)) : res A :=
  match l with [] => Panic | (k, a) :: l' => if rstring_eqb s (lit k) then Ok a else lookup_lit s l' end.
Definition GI_type_id (s : rstring) : res Z := lookup_lit s GI_type_ids.
''')

def pushes(name, lines_only=False):
    a, lines = arms(name)
    o.append('(** gameitem.rs:%s; [push_nonempty] and [push_opt] drop empty names *)' % lines)
    o.append('Definition GI_%s (i : GameItem) : list rstring :=\n  match i with' % name)
    for k in KINDS:
        var, e = a[k]
        ps = re.findall(r'push_(nonempty|opt)\(&mut out, &(\w+)\.(\w+)\)', e)
        rest = re.sub(r'push_(nonempty|opt)\(&mut out, &(\w+)\.(\w+)\)|[{};, ]', '', e)
        assert rest == '', (k, rest)
        parts = []
        for kind, v, f in ps:
            assert v == var
            parts.append(('nonempty' if kind == 'nonempty' else 'opt_nonempty') + ' (%s_%s v)' % (k, f))
        o.append('  | GI_%s %s => %s' % (k, 'v' if parts else '_', ' ++ '.join(parts) if parts else '[]'))
    o.append('  | GI_Generic _ _ => []\n  end.\n')
o.append('''(** gameitem.rs: [push_nonempty] and [push_opt] of [images] and [materials] *)
Definition nonempty (s : rstring) : list rstring := match s with [] => [] | _ => [s] end.
Definition opt_nonempty (s : option rstring) : list rstring := match s with Some x => nonempty x | None => [] end.''')
pushes('images'); pushes('materials')
body, lines = func('physics_material')
pm = re.findall(r'GameItemEnum::(\w+)\((\w+)\) => Some\(&(\w+)\.(\w+)\)', body)
o.append('(** gameitem.rs:%s *)' % lines)
o.append('Definition GI_physics_material (i : GameItem) : option rstring :=')
o.append('  match (match i with')
for k, v, v2, f in pm:
    assert v == v2
    o.append('         | GI_%s v => %s_%s v' % (k, k, f))
o.append('         | _ => None end) with Some ((_ :: _) as s) => Some s | _ => None end.\n')
a, lines = arms('is_visible')
o.append('(** gameitem.rs:%s *)' % lines)
o.append('Definition GI_is_visible (i : GameItem) : option bool :=\n  match i with')
body, _ = func('is_visible')
flat = re.sub(r'\s+', ' ', re.sub(r'//.*', '', body))
for k in KINDS:
    m = re.search(r'GameItemEnum::%s\((\w+)\) => (Some\((.*?)\)|(\w+)\.visible),' % k, flat)
    if m is None:
        assert re.search(r'GameItemEnum::%s\(_\) (\||=> None)' % k, flat), k
        continue
    var = m.group(1)
    if m.group(4):
        o.append('  | GI_%s v => %s_visible v' % (k, k))
    else:
        e = m.group(3)
        e = re.sub(r'\b%s\.(\w+)' % var, lambda q: '%s_%s v' % (k, q.group(1)), e).replace('||', '||')
        o.append('  | GI_%s v => Some (%s)' % (k, e))
o.append('  | _ => None\n  end.\n')
o.append('''(** gameitem.rs:734-761 [validate_part_group_order].  A warning is its format arguments: index, item name, type name and
    group name; the set of names is a list. *)
Record PartGroupWarning : Type := mkPGW { pgw_index : nat; pgw_name : rstring; pgw_type : rstring; pgw_group : rstring }.
Fixpoint validate_from (index : nat) (defined : list rstring) (items : list GameItem) : list PartGroupWarning :=
  match items with
  | [] => []
  | i :: items' =>
      let defined' := match i with GI_PartGroup pg => PartGroup_name pg :: defined | _ => defined end in
      (match GI_part_group_name i with
       | Some g => if existsb (rstring_eqb g) defined' then [] else [mkPGW index (GI_name i) (GI_type_name i) g]
       | None => []
       end) ++ validate_from (Datatypes.S index) defined' items'
  end.
Definition validate_part_group_order (items : list GameItem) : list PartGroupWarning := validate_from 0 [] items.
''')
open(os.path.join(OUT, 'GameItem.v'), 'w').write('\n'.join(o))

# ---- facts
f = []
f.append('''(** Generated by tools/gen_gameitem.py: facts about game items of any kind. *)
From Verif Require Import Base Text Biff Quantize Common Enums ItemBase.
From Verif Require Import %s GameItem.
From Verif Require Import BaseFacts TextFacts BiffFacts CommonFacts TermFacts QuantizeFacts EnumsFacts ItemBaseFacts.
From Verif Require Import %s.
From Verif Require Import GameItemBaseFacts.
''' % (' '.join('Item' + k for k in KINDS), ' '.join('Item%sFacts' % k for k in KINDS)))
f.append('(** The number that stands in front of an item. *)')
f.append('Definition GameItem_type (i : GameItem) : u32 :=\n  match i with')
for k in KINDS: f.append('  | GI_%s _ => Z_to_w32 %d' % (k, wtype[k]))
f.append('  | GI_Generic t _ => t\n  end.')
f.append('(** Items all of whose strings, blobs and numbers the file format can hold. *)')
f.append('Definition GameItem_ok (i : GameItem) : bool :=\n  match i with')
for k in KINDS: f.append('  | GI_%s v => %s_ok v' % (k, k))
f.append('  | GI_Generic _ _ => false\n  end.')
f.append('(** The records of an item, in the order in which they are written. *)')
f.append('Definition GameItem_recs (i : GameItem) : list rec :=\n  match i with')
for k in KINDS: f.append('  | GI_%s v => %s_recs v' % (k, k))
f.append('  | GI_Generic _ _ => []\n  end.')
f.append('(** The tags that the reader of an item kind looks at. *)')
f.append('Definition GameItem_tags (i : GameItem) : list string :=\n  match i with')
for k in KINDS: f.append('  | GI_%s _ => map fst %s_arms' % (k, k))
f.append('  | GI_Generic _ _ => []\n  end.\n')
for k in KINDS:
    f.append('''Lemma %(k)s_typed v rs : %(k)s_ok v = true -> Padded (map fst %(k)s_arms) (%(k)s_recs v) rs ->
  forall c, gameitem_read c (w32_bytes (Z_to_w32 %(n)d) ++ enc (rs ++ [endb])) = Ok (GI_%(k)s v).
Proof.
  intros H HP c. apply (typed_read_arms %(k)s_arms %(k)s_init GI_%(k)s (Z_to_w32 %(n)d) rs v c); [intros r; reflexivity|].
  exact (Steps_padded %(k)s_arms _ _ (%(k)s_recs v) rs ltac:(point_arms) (%(k)s_steps v H) HP).
Qed.
Lemma %(k)s_typed_write v : %(k)s_ok v = true ->
  gameitem_write (GI_%(k)s v) = Ok (w32_bytes (Z_to_w32 %(n)d) ++ enc (%(k)s_recs v ++ [endb])).
Proof. intros H. apply (typed_write %(n)d _ _ (%(k)s_wapp v H)). unfold %(k)s_write. closes. Qed.
''' % dict(k=k, n=wtype[k]))
f.append('''Lemma gameitem_write_ok i : GameItem_ok i = true ->
  gameitem_write i = Ok (w32_bytes (GameItem_type i) ++ enc (GameItem_recs i ++ [endb])).
Proof.
  destruct i; cbn [GameItem_ok GameItem_type GameItem_recs]; intros H.''')
for k in KINDS: f.append('  - exact (%s_typed_write v H).' % k)
f.append('  - discriminate H.\nQed.')
f.append('''Lemma gameitem_read_padded i rs : GameItem_ok i = true -> Padded (GameItem_tags i) (GameItem_recs i) rs ->
  forall c, gameitem_read c (w32_bytes (GameItem_type i) ++ enc (rs ++ [endb])) = Ok i.
Proof.
  destruct i; cbn [GameItem_ok GameItem_type GameItem_recs GameItem_tags]; intros H HP c.''')
for k in KINDS: f.append('  - exact (%s_typed v rs H HP c).' % k)
f.append('  - discriminate H.\nQed.')
f.append('''Lemma gameitem_roundtrip i : GameItem_ok i = true ->
  exists b, gameitem_write i = Ok b /\\ forall c, gameitem_read c b = Ok i.
Proof.
  intros H. exists (w32_bytes (GameItem_type i) ++ enc (GameItem_recs i ++ [endb])).
  split; [apply gameitem_write_ok, H|]. intros c. apply gameitem_read_padded; [exact H|apply Padded_refl].
Qed.
''')
# termination
f.append('Lemma GameItem_term : Term GameItem_read.\nProof.')
f.append('  apply Term_bind; [apply Term_get_u32_nru|]. intros t. cbv zeta.')
f.append('''  repeat match goal with |- Term (if ?c then _ else _) => destruct c end;
  try apply Term_panic; (apply Term_bind; [|intros; apply Term_ret]).''')
order = [k for c, e, k, m, k2 in rd if e != 'panic!']
for k in order: f.append('  - exact %s_term.' % k)
f.append('  - exact Generic_term.\nQed.\n')
# yields
f.append('''(** What is known about any item that was read. *)
Definition GameItem_was_read (i : GameItem) : Prop :=
  match i with
  | GI_Primitive v => Primitive_ok_but_frames v = true
  | GI_Generic t g => ~ In (w32_to_Z t) %s
  | i => GameItem_ok i = true
  end.''' % ('[' + '; '.join(str(n) for n in sorted(list(wtype.values()) + [consts[c] for c, e, *_ in rd if e == 'panic!'])) + ']'))
f.append('Lemma GameItem_yields : Yields GameItem_read GameItem_was_read.\nProof.')
f.append('''  eapply Yields_bind; [apply Yields_any, Keeps_u32_nru|]. intros t _. cbv zeta.
  repeat match goal with |- Yields (if ?c then _ else _) _ => destruct c eqn:? end;
  try (intros r x r' _ E; discriminate E).''')
for k in order: f.append('  - eapply Yields_bind; [exact %s_yields|]. intros v Hv. apply Yields_ret. exact Hv.' % k)
f.append('''  - eapply Yields_bind; [exact Generic_yields|]. intros v _. apply Yields_ret. cbn [GameItem_was_read In].
    repeat match goal with H : (_ =? _) = false |- _ => apply Z.eqb_neq in H end. intuition congruence.
Qed.
''')
open(os.path.join(OUT, 'GameItemFacts.v'), 'w').write('\n'.join(f))
