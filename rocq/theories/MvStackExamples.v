(** Concrete blocks for the examples of PropertiesMvStack. *)
From Coq Require Import ZArith List Bool Lia.
From Verif Require Import Base BlockTables GeomModel ElementSpec MvStackModel MvStackSpec MvFindProofs.
Import ListNotations.
Open Scope Z_scope.

(** ** Examples: a frame of 16 x 16 units in one tile; the blocks above units 4.. *)
Definition ex_tile : tile_env := mkEnv 0 16 0 16 16 16 true true 3.
Definition ex_block (m0 : mv) (size mode : Z) : nbr := mkNbr true 1 (-1) mode size m0 (0, 0).
(** Row 3 (4x4 blocks): vector (2, 4) but (6, 0) at column 4; elsewhere 8x8 blocks with (-8, 2). *)
Definition ex_mis : list (list (option nbr)) :=
  repeat (repeat (Some (ex_block (-8, 2) 3 17)) 16) 3 ++
  [repeat (Some (ex_block (2, 4) 0 13)) 4 ++ [Some (ex_block (6, 0) 0 13)] ++ repeat (Some (ex_block (2, 4) 0 13)) 11] ++
  repeat (repeat (Some (ex_block (-8, 2) 3 17)) 16) 12.
Definition ex_field (m : mv) : list (list (list mv)) := repeat (repeat (repeat m 8) 8) 8.
Definition ex_params : list (list Z) := repeat [2 ^ 14; 0; 2 ^ 16; 0; 0; 2 ^ 16] 8.
Definition ex_env_at (m : mv) (hp : bool) (typ : Z) (params : list (list Z)) (row : Z) : mv_env :=
  mkMvEnv ex_tile row 4 3 1 2 hp false (repeat typ 8) params (ex_field m) ex_mis.
Notation ex_env := (ex_env_at (20, 4)).
Definition ex_start : mv_state :=
  mkMvState 0 0 false (repeat ((0, 0), (0, 0)) 8) (repeat 0 8) ((0, 0), (0, 0)) 0 0.
Lemma ex_nbrs : forall e r c b, nb_at e r c = Some b -> v_mis e = ex_mis -> nbr_ok b /\ table_right (b_size b).
Proof.
  intros e r c b H E. revert r c b H. apply nb_at_all. rewrite E. intros row o I1 I2.
  assert (F : forallb (fun o => match o with Some b => ((b_size b =? 0) || (b_size b =? 3)) && (Z.abs (fst (b_mv0 b)) <=? 100) && (Z.abs (snd (b_mv0 b)) <=? 100) &&
                (Z.abs (fst (b_mv1 b)) <=? 100) && (Z.abs (snd (b_mv1 b)) <=? 100) | None => true end) (concat ex_mis) = true) by reflexivity.
  rewrite forallb_forall in F. specialize (F o (proj2 (in_concat _ _) (ex_intro _ row (conj I1 I2)))).
  destruct o as [b|]; [|exact I]. unfold nbr_ok, mv_ok, table_right. lia.
Qed.
Lemma ex_env_ok : forall m hp typ params row c, mv_ok m -> 0 <= row < 16 ->
  (len params = 8 /\ forall p, In p params -> len p = 6 /\ Forall (fun z => - 2 ^ 31 <= z < 2 ^ 31) p) -> env_ok (ex_env_at m hp typ params row) c.
Proof.
  intros m hp typ params row c HM HR HP. constructor; cbn [v_size v_ref0 v_ref1 v_gm_type v_gm_params v_tile v_row v_col v_mis v_field ex_env_at ex_tile
    e_row_start e_row_end e_col_start e_col_end e_mi_rows e_mi_cols]; try lia.
  - unfold len. rewrite repeat_length. reflexivity.
  - exact HP.
  - intros r cc b H. exact (proj1 (ex_nbrs _ _ _ _ H eq_refl)).
  - split; [reflexivity|]. intros f H. apply repeat_spec in H. subst f. split; [vm_compute; discriminate|].
    intros r H. apply repeat_spec in H. subst r. split; [vm_compute; discriminate|]. apply Forall_forall. intros m' H. apply repeat_spec in H. subst m'. exact HM.
Qed.
Lemma ex_around : forall m hp typ params, around_ok (ex_env_at m hp typ params 4).
Proof.
  intros. constructor.
  - change (bw4 (ex_env_at m hp typ params 4)) with 2. intros i H _. assert (i = 0 \/ i = 1) as [-> | ->] by lia; eexists; reflexivity.
  - change (bh4 (ex_env_at m hp typ params 4)) with 2. intros i H _. assert (i = 0 \/ i = 1) as [-> | ->] by lia; eexists; reflexivity.
  - intros _. split; [cbn; lia|]. eexists. split; [reflexivity|]. cbn. lia.
Qed.
Lemma ex_tables : forall m hp typ params row, tables_right (ex_env_at m hp typ params row).
Proof. intros. split; [unfold table_right; cbn; lia|]. intros r c b H. exact (proj2 (ex_nbrs _ _ _ _ H eq_refl)). Qed.
Lemma ex_params_ok : forall l, len l = 6 -> Forall (fun z => - 2 ^ 31 <= z < 2 ^ 31) l ->
  len (repeat l 8) = 8 /\ forall p, In p (repeat l 8) -> len p = 6 /\ Forall (fun z => - 2 ^ 31 <= z < 2 ^ 31) p.
Proof. intros l L F. split; [unfold len; rewrite repeat_length; reflexivity|]. intros p H. apply repeat_spec in H. subst p. split; assumption. Qed.
Lemma ex_arrays : arrays_ok ex_start.
Proof. split; reflexivity. Qed.

Ltac small_params := apply ex_params_ok; [reflexivity|repeat (apply Forall_cons; [lia|]); apply Forall_nil].
Ltac ex_ok := apply ex_env_ok; [unfold mv_ok; cbn [fst snd]; lia|lia|small_params].
