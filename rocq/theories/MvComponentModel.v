(** The closure [encode_mv_component] of tile_encoder.rs, which is defined in [assign_mv] but
    not called. *)
From Coq Require Import String ZArith List Bool.
From Verif Require Import Base UtilModel ContextModel ModeInfoModel.
Import ListNotations.
Open Scope Z_scope.

(** tile_encoder.rs 1422-1425: [for i in 0..mv_class]. *)
Fixpoint mv_bit_loop (n : nat) (i : Z) (mag ctx comp : Z) (es : list ev) : res (list ev) :=
  match n with
  | O => Ok es
  | S n =>
      _ <- shift_ok 64 (i + 3) ;;
      es <- emit (encode_mv_bit (Z.land (Z.shiftr mag (i + 3)) 1) i ctx comp) es ;;
      mv_bit_loop n (i + 1) mag ctx comp es
  end.

(** tile_encoder.rs 1403-1436; [int] is [force_integer_mv != 0], [hp] is
    [allow_high_precision_mv], [ctx] is [mv_ctx]. [Abs!] negates an isize; [mv_sign] is
    computed and not used; [MVClass::from_u8] has the values 0 to 10. *)
Definition mv_component (int hp : bool) (ctx v comp : Z) (es : list ev) : res (list ev) :=
  mv_abs <- (if 0 <=? v then Ok v else chk_i64 (- v)) ;;
  m <- msb16 (as_u16 mv_abs) ;;
  let mv_class := m / 8 in
  if 10 <? mv_class then Panic
  else
    es <- emit (encode_mv_class mv_class ctx comp) es ;;
    if mv_class =? 0 then
      let class0_bit := Z.land (Z.shiftr mv_abs 3) 1 in
      es <- emit (encode_mv_class0_bit class0_bit ctx comp) es ;;
      es <- (if int then Ok es else emit (encode_mv_class0_fr (Z.land (Z.shiftr mv_abs 1) 3) class0_bit ctx comp) es) ;;
      if hp then emit (encode_mv_class0_hp (Z.land mv_abs 1) ctx comp) es else Ok es
    else
      _ <- shift_ok 64 (mv_class + 2) ;;
      mag <- chk_u64 (mv_abs - Z.shiftl 2 (mv_class + 2)) ;;
      es <- mv_bit_loop (Z.to_nat mv_class) 0 mag ctx comp es ;;
      es <- (if int then Ok es else emit (encode_mv_fr (Z.land (Z.shiftr mag 1) 3) ctx comp) es) ;;
      if hp then emit (encode_mv_hp (Z.land mag 1) ctx comp) es else Ok es.
