(** A concrete 6 x 7 domain used to show that the hypotheses of the theorems
    are satisfiable and to run the model in binary64. *)
From Coq Require Import ZArith List Bool Reals Lra Lia Floats.SpecFloat.
From Verif Require Import Base RLemmas Shared SharedSpec Params State Water WaterSpec.
Import ListNotations.
Local Open Scope Z_scope.

Section Ex.
  Context {F : Type} {A : Arith F}.

  (** Default physics on a 6 x 7 grid, inlet columns 2..4, inlet length 2. *)
  Definition exP : params F := {|
    p_L := 6; p_W := 7; p_CTR := 3; p_L0 := 2; p_N0 := 3; p_inlet := [2; 3; 4];
    p_dx := fz 50; p_h0 := fz 5; p_hb := fz 5; p_u0 := fz 1; p_S0 := flit 15 100000;
    p_u_max := fz 2; p_C0 := flit 1 1000; p_dry_depth := flit 1 10;
    p_gamma := flit 736 10000; p_V0 := fz 12500; p_Qw0 := fz 750; p_qw0 := fz 5;
    p_Qp_water := flit 375 2; p_qs0 := flit 5 1000; p_dVs := fz 11250; p_Qs0 := flit 75 100;
    p_Vp_sed := flit 5625 2; p_stepmax := 26; p_dt := fz 15000; p_omega_flow_iter := fz 1;
    p_N_crossdiff := 1; p_lambda := fz 1; p_diffusion_multiplier := flit 3 10;
    p_theta_water := fz 1; p_theta_sand := fz 2; p_theta_mud := fz 1;
    p_U_dep_mud := flit 3 10; p_U_ero_sand := flit 105 100; p_U_ero_mud := flit 3 2;
    p_itermax := 2; p_Np_water := 4; p_Np_sed := 4; p_f_bedload := flit 1 2; p_f_bedload_router := flit 1 2;
    p_beta := fz 3; p_omega_sfc := flit 1 10; p_omega_flow := flit 9 10;
    p_Nsmooth := 5; p_Csmooth := flit 9 10; p_SLR := fz 0; p_sand_frac_bc := flit 1 2;
    p_active_layer_thickness := fz 1; p_toggle_subsidence := false;
    p_start_subsidence := fz 0; p_sigma := fun _ _ => fz 0; p_save_dt := fz 30000;
    p_checkpoint_dt := fz 30000; p_save_checkpoint := false |}.

  (** Land strip of two rows with the channel in columns 2..4, edge cells on
      the last row and the outer columns. *)
  Definition exct : grid Z := fun i j =>
    if i <? 2 then (if (2 <=? j) && (j <=? 4) then 1 else -2)
    else if (i =? 5) || (j =? 0) || (j =? 6) then -1 else 0.

  Definition ex_stage : grid F := fun i j =>
    if (i <? 2) && (exct i j =? 1) then fmul (fmul (fz (1 - i)) (fz 50)) (flit 15 100000) else fz 0.
  Definition ex_depth : grid F := fun i j => if exct i j =? -2 then fz 0 else fz 5.
  Definition ex_qx : grid F := fun i j =>
    if exct i j =? -2 then fz 0 else if exct i j =? 1 then fz 5 else fz 1.
  Definition zg : grid F := fun _ _ => fz 0.
  Definition og : grid F := fun _ _ => fz 1.

  Definition exst {S} (s : S) : state F S := {|
    s_eta := fun i j => fsub (ex_stage i j) (ex_depth i j);
    s_eta0 := fun i j => fsub (ex_stage i j) (ex_depth i j);
    s_stage := ex_stage; s_depth := ex_depth; s_qx := ex_qx; s_qy := zg; s_qw := ex_qx;
    s_qxn := zg; s_qyn := zg; s_qwn := zg;
    s_ux := fun i j => if exct i j =? -2 then fz 0 else fdiv (ex_qx i j) (ex_depth i j);
    s_uy := zg;
    s_uw := fun i j => if exct i j =? -2 then fz 0 else fdiv (ex_qx i j) (ex_depth i j);
    s_qs := zg; s_sand_frac := fun _ _ => flit 1 2; s_active_layer := fun _ _ => flit 1 2;
    s_Vp_dep_sand := zg; s_Vp_dep_mud := zg; s_mod_water_weight := og; s_mod_sed_weight := og;
    s_mod_erosion := og; s_sfc_visit := zg; s_sfc_sum := zg; s_Hnew := zg; s_cf := zg;
    s_cell_type := exct; s_H_SL := fz 0; s_time := fz 0; s_time_iter := 0;
    s_save_time_since_data := Fin (fz 0); s_save_time_since_checkpoint := Fin (fz 0); s_save_iter := 0;
    s_width := 13; s_rng := s |}.
End Ex.

(** A linear congruential generator for the binary64 runs. *)
Definition lcg : Rng sfloat Z := {|
  draw := fun s => let s' := (s * 1103515245 + 12345) mod 2147483648 in
                   (SFdiv sf_prec sf_emax (sf_of_Z (s' + 1)) (sf_of_Z 2147483650), s');
  seed_rng := fun z => z |}.

(** A real-valued generator whose draws lie strictly between 0 and 1. *)
Definition half_rng : Rng R unit := {| draw := fun s => ((1 / 2)%R, s); seed_rng := fun _ => tt |}.

Lemma half_rng_range : uniform_range half_rng.
Proof. intros s. cbn. lra. Qed.
Lemma half_rng_pos : forall s : unit, (0 < fst (draw (Rng:=half_rng) s))%R.
Proof. intros s. cbn. lra. Qed.

Ltac zcases := repeat match goal with
  | |- context [(?x <? ?y)%Z] => destruct (Z.ltb_spec x y)
  | |- context [(?x =? ?y)%Z] => destruct (Z.eqb_spec x y)
  | |- context [(?x <=? ?y)%Z] => destruct (Z.leb_spec x y)
  end; cbn [andb orb].

Lemma ex_walk_domain : walk_domain 6 7 2 exct [2; 3; 4].
Proof.
  constructor; try lia.
  - intros i j [Hi Hj]. unfold exct, LAND, EDGE. zcases; intros; try lia; congruence.
  - intros j Hj. unfold exct, EDGE. zcases; lia.
  - intros i j [Hi Hj]. unfold exct, LAND. zcases; lia.
  - intros c [<-|[<-|[<-|[]]]]; unfold exct, LAND, EDGE; cbn; split; lia.
  - discriminate.
Qed.

Lemma ex_ready : water_ready (exP (A:=RX)) (exst (A:=RX) tt).
Proof. constructor; cbn; try lia; [exact ex_walk_domain|lra]. Qed.
