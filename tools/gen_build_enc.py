#!/usr/bin/env python3
"""Writes rocq/theories/BuildEncModel.v and BuildEncProofs.v: the functions of the
encoder that compute with checked integers, or call one that does, read according
to the build profile; and the proofs that the debug reading is the original and
that a release build agrees with it wherever it does not panic.

The model text is taken from the files in ENC; only the places in EDITS differ."""
import os
import re

D = os.path.join(os.path.dirname(os.path.abspath(__file__)), '..', 'rocq', 'theories')
SRC = open(os.path.join(os.path.dirname(os.path.abspath(__file__)), 'gen_build.py')).read()
exec(SRC[SRC.index('def items'):SRC.index('def main')])

CODER = 'UtilModel RangeCoderModel BitCodecModel SessionModel'.split()
ENC = ('FieldModel WriterModel SeqModel ObuModel ElementModel GeomModel TileModel ContextModel MvStackModel '
       'ModeInfoModel FrameParamModel FrameModel LrModel WholeTileModel StreamModel OptionModel MainModel').split()
TABLES = ['BlockTables', 'CdfTables', 'CdfTableSpec']
BASE = 'chk_i32 chk_i64 chk_u8 chk_u16 chk_u32 chk_u64 shift_ok shift_amt sub_u64'.split()
PURE = ('shift_amt', 'sub_u64')


def amount(s, w, a):
    return (s + ' ' + a, s + ' (shift_amt %d %s)' % (w, a))


EDITS = {
    'get_relative_dist': [amount('Z.shiftl 1', 64, 'k')],
    'delta_q_ops': [amount('Z.shiftr d', 64, 'delta_q_res')],
    'delta_lf_ops': [amount('Z.shiftr d', 64, 'delta_lf_res')],
    'encode_subexp_loop': [amount('Z.shiftl 1', 64, 'b2')],
    'mark_refs': [amount('Z.shiftl 1', 64, 'diff'), amount('Z.shiftl 1', 64, 'id_len')],
    'enc_removal_loop': [amount('Z.shiftr idc', 16, 'tid'), amount('Z.shiftr idc', 16, 's8')],
    'enc_refs': [amount('Z.shiftl 1', 64, 'id_len')],
    'set_order_hints': [amount('Z.shiftl 1', 64, 'k')],
    'enc_cdef': [amount('Z.shiftl 1', 64, '(cd_bits p)')],
    'enc_lr': [amount('Z.shiftr s1', 64, 'uv'), amount('Z.shiftr s2', 64, 'uv')],
    'rel_dist': [amount('Z.shiftl 1', 64, 'k')],
    'split_cdf': [amount('Z.shiftl 1', 32, 'k')],
    'subexp_bool_loop': [amount('Z.shiftl 1', 64, 'b2')],
    'encode_tile_info': [amount('Z.shiftl 1', 64, 'cl'), ('- 1) cl in', '- 1) (shift_amt 64 cl) in')],
}

IMPORTS = '''From Coq Require Import String ZArith List Bool.
From Verif Require Import Base UtilModel RangeCoderModel BitCodecModel SessionModel BlockTables CdfTables CdfTableSpec.
From Verif Require Import %s
  %s.
''' % (' '.join(ENC[:9]), ' '.join(ENC[9:]))

MODEL_HEAD = '''(** The rest of the encoder once more, with the integer arithmetic read as either
    build profile reads it (see BuildModel.v). Written by tools/gen_build_enc.py from
    the model files named below, of which only the functions that compute with checked
    integers, or call one that does, are repeated. Shifts are spelt differently,
    because a release build goes on where those files stop; the [Debug] reading is
    equal to those files (BuildEncProofs.v). Sums of positions that those files leave
    unchecked are unchecked here too, so what a release build does after an overflow
    is meant only where a property speaks of it. The names are those of the
    originals, so this file is required without being imported. *)
''' + IMPORTS + '''From Verif Require BuildModel.
Import ListNotations.
Open Scope string_scope.
Open Scope list_scope.
Open Scope Z_scope.

Section Build.
Variable B : BuildModel.build.

'''

PROOF_HEAD = '''(** Proofs about BuildEncModel: the debug reading is the model, and whatever the
    debug build returns, the release build returns too. Written by
    tools/gen_build_enc.py. *)
''' + IMPORTS + '''From Verif Require Import BuildProofs.
From Verif Require BuildModel BuildEncModel.
Import ListNotations.
Open Scope Z_scope.

Ltac le_if :=
  match goal with |- le ?l _ => match l with context [if ?b then _ else _] => destruct b end end.
(** Functions that take another as argument, see below. *)
Ltac le_hof := fail.
Ltac le_go' := le_go; repeat (first [le_hof | le_if]; le_go).
Ltac le_fix f := cbn [f]; le_go'.
Ltac le_def f ::= unfold f; le_go'.

'''

# what the general lemma of a function needs before it, and lemmas with their own proof
BEFORE = {
    'base_ctx': '''Lemma le_sum_mag l : forall r c bwl width height quant v v' acc,
  (forall q, le (v q) (v' q)) ->
  le (sum_mag l r c bwl width height quant v acc) (sum_mag l r c bwl width height quant v' acc).
Proof. induction l; intros; cbn [sum_mag]; le_go. Qed.
Ltac le_hof ::= apply le_sum_mag; intros.
''',
    'encode_lr': 'Ltac le_hof ::= first [apply le_sum_mag; intros | apply le_lr_planes; intros].\n',
}
OWN = {
    'stream_obu': '''Lemma le_stream_obu : forall w x o out,
  le (BuildEncModel.stream_obu Debug T superblock w x o out)
     (BuildEncModel.stream_obu Release T superblock' w x o out).
Proof.
  intros. unfold BuildEncModel.stream_obu. apply le_bind; [|intros ? _; le_go].
  unfold BuildEncModel.encode_obu_header. cbv zeta.
  assert (E : obu_type (BuildEncModel.variant Release T superblock' x o)
              = obu_type (BuildEncModel.variant Debug T superblock x o))
    by (unfold BuildEncModel.variant; destruct o; cbv beta iota zeta delta [obu_type]; reflexivity).
  rewrite E. le_go.
Qed.
''',
}


def read(f):
    return open(os.path.join(D, f + '.v')).read()


def sentences(f):
    text = read(f)
    if 'Open Scope Z_scope.' not in text:
        text = 'Open Scope Z_scope.' + re.sub(r'^.*?(Definition|Fixpoint)', r'\1', text, 1, re.S)
    return items(text)


def names(s):
    """What a sentence defines."""
    w = s.split()
    if w[0] not in ('Definition', 'Fixpoint', 'Record', 'Inductive'):
        return []
    out = [w[1]]
    if w[0] == 'Record':
        m = re.search(r':=\s*(\w+)\s*\{(.*)\}', s, re.S)
        if m:
            out += [m.group(1)] + re.findall(r'(\w+)\s*:[^;]*', m.group(2))
    if w[0] == 'Inductive':
        out += re.findall(r'(?:^|\|)\s*(\w+)', s.split(':=', 1)[1])
    return out


def tokens(s):
    return set(re.findall(r"[A-Za-z_][A-Za-z_0-9']*", re.sub(r'"[^"]*"', '', s)))


def parse(s):
    """Name, binders, result type and body of a definition."""
    m = re.match(r'(Definition|Fixpoint)\s+(\S+)\s*', s)
    i, args = m.end(), []
    while s[i] in '({':
        d, j = 0, i
        while True:
            d += (s[j] in '({') - (s[j] in ')}')
            j += 1
            if d == 0:
                break
        ns, ty = s[i + 1:j - 1].split(':', 1)
        args += [(n, ' '.join(ty.split())) for n in ns.split()]
        i = j
        while s[i].isspace():
            i += 1
    k = s.index(':=', i)
    return m.group(2), args, s[i:k].lstrip(': ').strip(), s[k + 2:]


def model():
    """Writes the model; returns the sentences written, the names that do not depend
    on the build and where the functions of the coder come from."""
    defs = {}
    for f in CODER + ENC + TABLES:
        for _, s in sentences(f):
            for n in names(s):
                defs.setdefault(n, []).append(f)
    ambiguous = {n for n, fs in defs.items() if len(set(fs)) > 1}
    coder = {n: None for n in BASE}
    for f in CODER:
        for _, s in sentences(f):
            w = s.split()
            if w[0] in ('Definition', 'Fixpoint') and tokens(s) & set(coder):
                coder[w[1]] = f
    body, enc, fixed, used, shapes = '', {}, set(), set(), []
    for f in ENC:
        imports = re.findall(r'\w+', ' '.join(re.findall(r'From Verif Require Import ([^.]*)\.', read(f))))
        its = sentences(f)
        local = {n for _, s in its for n in names(s)}
        section = None
        body += f'(** ** {f} *)\n\n'

        def owner(t):
            if t in local:
                return f
            return next((g for g in reversed(imports) if g in defs.get(t, [])), None)

        for comment, s in its:
            w = s.split()
            if w[0] == 'Section':
                section = w[1]
                body += s + '\n'
                shapes.append((f, w[0], w[1].rstrip('.'), s))
            elif w[0] == 'Variable':
                body += comment + s + '\n'
                shapes.append((f, w[0], w[1], s))
            elif w[0] == 'End':
                section = None
                body += s + '\n\n'
                shapes.append((f, w[0], w[1], s))
            if w[0] not in ('Definition', 'Fixpoint'):
                continue
            name = w[1]
            hit = [t for t in tokens(s) if t != name and
                   ((t in enc and owner(t) == enc[t]) or (t in coder and (coder[t] is None or owner(t) == coder[t])))]
            if not hit and not section:
                continue
            if all(t in fixed for t in hit):
                fixed.add(name)
            assert name not in enc, name
            for a, b in EDITS.get(name, []):
                assert a in s, (name, a)
                s = s.replace(a, b)

            def qualify(m):
                t = m.group(0)
                if t not in ambiguous or t == name or owner(t) is None or enc.get(t) == owner(t):
                    return t
                return f'(BuildModel.{t} B)' if coder.get(t) == owner(t) else owner(t) + '.' + t

            s = ''.join(p if p.startswith('"') else
                        re.sub(r"(?<![.%\w'])[A-Za-z_][A-Za-z_0-9']*(?!')", qualify, p)
                        for p in re.split(r'("[^"]*")', s))
            if f == 'StreamModel':  # the types of its section take the parameter now
                s = s.replace(': sobu)', ': sobu T)').replace('list action', 'list (action T)')
            enc[name] = f
            used |= {t for t in hit if t in coder} | {'shift_amt'}
            body += comment + s + '\n\n'
            shapes.append((f, w[0], name, s))
    assert set(EDITS) <= set(enc)
    notations = ''.join(f'Local Notation {n} := (BuildModel.{n} B).\n' for n in sorted(used) if n != 'emit')
    open(os.path.join(D, 'BuildEncModel.v'), 'w').write(MODEL_HEAD + notations + '\n' + body + 'End Build.\n')
    return shapes, fixed, coder


def agree(shapes, fixed):
    """The lemmas about debug and release."""
    out, variables, section, pending, needs = '', [], None, [], {}
    for f, kind, name, s in shapes:
        if kind == 'Section':
            section, variables = name, []
            out += f'Section {name}.\n'
            continue
        if kind == 'Variable':
            v, ty = re.match(r'Variable (\w+) : (.*)\.$', s, re.S).groups()
            if '-> res' in ty:
                xs = ' '.join(f'x{i}' for i in range(ty.count('->')))
                out += f"Variables {v} {v}' : {ty}.\nHypothesis H{v} : forall {xs}, le ({v} {xs}) ({v}' {xs}).\n"
            else:
                out += s + '\n'
            variables.append((v, '-> res' in ty))
            continue
        if kind == 'End':
            section = None
            out += s + '\n' + ''.join(f'#[global] Hint Resolve {x} : le.\n' for x in pending)
            pending = []
            continue
        _, args, ret, body = parse(s)
        ts = tokens(s)
        vs = []
        if section:
            need = {v for v, _ in variables if v in ts}.union(*[needs[t] for t in ts if t in needs and t != name])
            if need:
                need |= {v for v, _ in variables if v in ('S', 'T')}
            vs = [v for v, _ in variables if v in need]
            needs[name] = vs
        if not (ret.startswith('res') or ret == 'wr'):
            continue
        out += BEFORE.get(name, '')
        if name in OWN:
            out += OWN[name]
        else:
            prime = {v for v, b in variables if b} if section else set()
            fun = [(a, t) for a, t in args if '-> res' in t or t == 'wr']
            primed = {a for a, _ in fun}
            an = [a for a, _ in args]
            hyp = ''
            for a, t in fun:
                xs = ' '.join(f'x{i}' for i in range(t.count('->')))
                hyp += f"(forall {xs}, le ({a} {xs}) ({a}' {xs})) -> " if xs else f"le {a} {a}' -> "
            binders = an + [a + "'" for a in an if a in primed]
            q = f'BuildEncModel.{name}'
            left = ' '.join(['@' + q] + ([] if name in fixed else ['Debug']) + vs + an)
            right = ' '.join(['@' + q] + ([] if name in fixed else ['Release']) +
                             [v + "'" if v in prime else v for v in vs] + [a + "'" if a in primed else a for a in an])
            quant = f'forall {" ".join(binders)}, ' if binders else ''
            out += f'Lemma le_{name} : {quant}{hyp}\n  le ({left})\n     ({right}).\n'
            if kind == 'Fixpoint':
                st = next(x for x in re.findall(r'match (\w+)[, w]', body) if x in an)
                others = ' '.join(b for b in binders if b != st)
                rev = f'revert {others}; ' if others else ''
                out += f'Proof. intros {" ".join(binders)}; {rev}induction {st}; intros; le_fix {q}. Qed.\n'
            else:
                out += f'Proof. intros; le_def {q}. Qed.\n'
        if section:
            pending.append('le_' + name)
        out += f'#[{"local" if section else "global"}] Hint Resolve le_{name} : le.\n'
    return out


def debug(shapes, fixed, coder):
    """The lemmas that the debug reading is the original."""
    out = '\n(** ** The debug reading *)\n\n'
    for n in sorted(coder):
        if n not in PURE:
            out += f'Lemma coder_{n} : BuildModel.{n} Debug = {coder[n] or "Base"}.{n}.\nProof. reflexivity. Qed.\n'
    defined = [n for _, k, n, _ in shapes if k in ('Definition', 'Fixpoint')]
    for f, kind, name, s in shapes:
        if kind not in ('Definition', 'Fixpoint'):
            continue
        ts = tokens(s)
        rw = ['?coder_' + x for x in sorted(coder) if x in ts and x not in PURE and x != 'emit']
        rw += ['?debug_' + x for x in defined if x in ts and x != name]
        b = '' if name in fixed else ' Debug'
        rewrite = f' rewrite {", ".join(rw)}.' if rw else ''
        out += (f'Lemma debug_{name} : @BuildEncModel.{name}{b} = @{f}.{name}.\nProof.\n'
                f'  unfold BuildEncModel.{name}, {f}.{name}; cbv beta delta [BuildModel.shift_amt] iota.{rewrite} reflexivity.\nQed.\n')
    return out


def main():
    shapes, fixed, coder = model()
    open(os.path.join(D, 'BuildEncProofs.v'), 'w').write(PROOF_HEAD + agree(shapes, fixed) + debug(shapes, fixed, coder))


main()
