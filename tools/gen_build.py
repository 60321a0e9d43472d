#!/usr/bin/env python3
"""Writes rocq/theories/BuildModel.v: the functions of UtilModel, RangeCoderModel,
BitCodecModel and SessionModel again, with arithmetic read according to the build
profile. The text is taken from those files; only the places listed in EDITS
differ. BuildProofs.v proves that the debug reading is the original model."""
import os
import re

D = os.path.join(os.path.dirname(os.path.abspath(__file__)), '..', 'rocq', 'theories')

HEAD = '''(** The arithmetic coder and the bit codecs once more, with the integer
    arithmetic read as either build profile reads it. Written by
    tools/gen_build.py from UtilModel, RangeCoderModel, BitCodecModel and
    SessionModel; only shifts and one subtraction are spelt differently, because
    a release build goes on where those files stop. BuildProofs.v shows that the
    [Debug] reading is equal to those files. The names are those of the
    originals, so this file is required without being imported.

    /repo/Cargo.toml has no [profile] section, so the defaults apply: a debug
    build ([cargo build], [cargo test]) checks arithmetic and shift amounts, a
    release build ([cargo build --release]) wraps arithmetic and reduces a shift
    amount modulo the width. Index checks, [assert!] and [unwrap] stay in both. *)
From Coq Require Import ZArith List Bool.
From Verif Require Import Base UtilModel RangeCoderModel BitCodecModel SessionModel.
Import ListNotations.
Open Scope Z_scope.

Inductive build : Type := Debug | Release.

Section Build.
Variable B : build.

(** Checked in a debug build, wrapped in a release build. *)
Definition chk_i32 (z : Z) : res Z := match B with Debug => Base.chk_i32 z | Release => Ok (as_i32 z) end.
Definition chk_i64 (z : Z) : res Z := match B with Debug => Base.chk_i64 z | Release => Ok (as_i64 z) end.
Definition chk_u8 (z : Z) : res Z := match B with Debug => Base.chk_u8 z | Release => Ok (as_u8 z) end.
Definition chk_u16 (z : Z) : res Z := match B with Debug => Base.chk_u16 z | Release => Ok (as_u16 z) end.
Definition chk_u32 (z : Z) : res Z := match B with Debug => Base.chk_u32 z | Release => Ok (as_u32 z) end.
Definition chk_u64 (z : Z) : res Z := match B with Debug => Base.chk_u64 z | Release => Ok (as_u64 z) end.

(** The check of a shift amount, and the amount by which a shift of a [width]-bit
    integer really shifts. *)
Definition shift_ok (width amount : Z) : res unit :=
  match B with Debug => Base.shift_ok width amount | Release => Ok tt end.
Definition shift_amt (width amount : Z) : Z :=
  match B with Debug => amount | Release => amount mod width end.
(** A subtraction that the model does not check because it cannot fail in a debug
    build. *)
Definition sub_u64 (a b : Z) : Z := match B with Debug => a - b | Release => as_u64 (a - b) end.

'''

# definitions without arithmetic that can overflow: used as they are
KEEP = {
    'UtilModel': 'Abs Clip3 Clip1 Min Max Round2 Round2Signed lut16 lut32 lut64 floorlog2_loop',
    'RangeCoderModel': 'coder new_coder push set_pending set_vr set_first set_max_bits init_encoder '
                       'push_value_bits push_n pop exit_decoder',
    'BitCodecModel': 'bit_at push_bits push_bits_align',
    'SessionModel': 'op shape shape_of set_nth cdf_table',
}

EDITS = [
    ('(Z.shiftr literal (Z.of_nat i))', '(Z.shiftr literal (shift_amt 64 (Z.of_nat i)))'),
    ('(push out (bit_at v i)) v lo', '(push out (bit_at v (shift_amt width i))) v lo'),
    ('(Z.shiftr val sh)', '(Z.shiftr val (shift_amt 64 sh))'),
    ('(Z.shiftl byte sh)', '(Z.shiftl byte (shift_amt 64 sh))'),
    ('(Z.shiftl 1 k)', '(Z.shiftl 1 (shift_amt 64 k))'),
    ('let sign_mask := Z.shiftl 1 k in', 'let sign_mask := Z.shiftl 1 (shift_amt 64 k) in'),
    ('(Z.shiftl 1 w - n)', '(Z.shiftl 1 (shift_amt 64 w) - n)'),
    ('push_range 64 out val 0 (Z.to_nat (w - 1))', 'push_range 64 out val 0 (Z.to_nat (sub_u64 w 1))'),
    ('read_u64 (Z.to_nat (w - 1)) 0 q', 'read_u64 (Z.to_nat (sub_u64 w 1)) 0 q'),
]


def items(text):
    """(comment, sentence) pairs after the header."""
    text = text[text.index('Open Scope Z_scope.') + len('Open Scope Z_scope.'):]
    out, comment, i = [], '', 0
    while True:
        while i < len(text) and text[i].isspace():
            i += 1
        if i >= len(text):
            return out
        if text.startswith('(*', i):
            j, depth = i, 0
            while True:
                if text.startswith('(*', j):
                    depth += 1
                    j += 2
                elif text.startswith('*)', j):
                    depth -= 1
                    j += 2
                    if depth == 0:
                        break
                else:
                    j += 1
            comment += text[i:j] + '\n'
            i = j
        else:
            m = re.compile(r'(?:\(\*.*?\*\)|.)*?(\.)(\s|$)', re.S).match(text, i)
            out.append((comment, text[i:m.start(1) + 1]))
            comment, i = '', m.end()


def main():
    out, used = HEAD, set()
    for f in ['UtilModel', 'RangeCoderModel', 'BitCodecModel', 'SessionModel']:
        out += f'(** ** {f} *)\n\n'
        for comment, s in items(open(os.path.join(D, f + '.v')).read()):
            name = s.split()[1]
            if name in KEEP[f].split():
                continue
            for a, b in EDITS:
                if a in s:
                    used.add(a)
                    s = s.replace(a, b)
            out += comment + s + '\n\n'
    assert used == {a for a, _ in EDITS}, {a for a, _ in EDITS} - used
    out += 'End Build.\n'
    open(os.path.join(D, 'BuildModel.v'), 'w').write(out)


main()
