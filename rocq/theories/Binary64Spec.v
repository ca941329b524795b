(** C76: what a binary64 number stands for. *)
From Coq Require Import ZArith Reals Floats.SpecFloat.
From Flocq Require Import Core.
From Verif Require Import Base RoundingFlocq.
Local Open Scope R_scope.

(** Rounding to the nearest binary64 number, ties to even, were there no
    largest one. *)
Definition rn64 : R -> R := rne 53 (-1074).

(** x is a finite binary64 number with the value r: zero, or a sign, a mantissa
    and an exponent that fit the format. *)
Definition stands_for (x : sfloat) (r : R) : Prop :=
  valid_binary 53 1024 x = true /\
  match x with
  | S754_zero _ => r = 0
  | S754_finite s m e => r = IZR (if s then Z.neg m else Z.pos m) * powerRZ 2 e
  | _ => False
  end.

(** The rounded result fits the format. *)
Definition fits (r : R) : Prop := Rabs (rn64 r) < powerRZ 2 1024.

(** Infinity of the sign of r. *)
Definition infinite (x : sfloat) (r : R) : Prop := x = S754_infinity (if Rlt_dec r 0 then true else false).

(** ** The same model in binary64 and in real numbers *)
From Coq Require Import List.
From Verif Require Import Params State Water.

(** x stands for r, which is at most 10^30 in size. *)
Definition moderate (x : sfloat) (r : R) : Prop := stands_for x r /\ Rabs r <= 10 ^ 30.

(** The generators draw the same variates and go through the same states. *)
Definition same_draws {S : Type} (GF : Rng sfloat S) (GR : Rng R S) : Prop :=
  forall s, stands_for (fst (draw (Rng:=GF) s)) (fst (draw (Rng:=GR) s)) /\
            snd (draw (Rng:=GF) s) = snd (draw (Rng:=GR) s).

(** Constants and state of a model: what the routing of water reads has moderate
    values; depths and hook weights are not negative, gamma is a fraction, the exponent
    of the depth is 0, 1 or 2, and the domain and its inlet have a moderate size. *)
Record same_model {S : Type} (PF : params sfloat) (PR : params R) (stF : state sfloat S) (stR : state R S) : Prop := {
  sm_L : p_L PF = p_L PR; sm_W : p_W PF = p_W PR; sm_CTR : p_CTR PF = p_CTR PR; sm_L0 : p_L0 PF = p_L0 PR;
  sm_stepmax : p_stepmax PF = p_stepmax PR; sm_inlet : p_inlet PF = p_inlet PR; sm_Np : p_Np_water PF = p_Np_water PR;
  sm_rows : (1 <= p_L PR <= 10000)%Z; sm_cols : (1 <= p_W PR <= 10000)%Z; sm_centre : (0 <= p_CTR PR <= 10000)%Z;
  sm_inlet_size : (length (p_inlet PR) <= 900)%nat;
  sm_dry : moderate (p_dry_depth PF) (p_dry_depth PR);
  sm_gamma : stands_for (p_gamma PF) (p_gamma PR); sm_gamma_range : 0 <= p_gamma PR <= 1;
  sm_theta : stands_for (p_theta_water PF) (p_theta_water PR);
  sm_theta_range : p_theta_water PR = 0 \/ p_theta_water PR = 1 \/ p_theta_water PR = 2;
  sm_level : moderate (s_H_SL stF) (s_H_SL stR);
  sm_types : s_cell_type stF = s_cell_type stR; sm_width : s_width stF = s_width stR; sm_rng : s_rng stF = s_rng stR;
  sm_fields : forall i j, inb (p_L PR) (p_W PR) i j ->
    moderate (s_stage stF i j) (s_stage stR i j) /\
    (moderate (s_depth stF i j) (s_depth stR i j) /\ 0 <= s_depth stR i j) /\
    (moderate (s_mod_water_weight stF i j) (s_mod_water_weight stR i j) /\ 0 <= s_mod_water_weight stR i j) /\
    moderate (s_qx stF i j) (s_qx stR i j) /\ moderate (s_qy stF i j) (s_qy stR i j)
}.

(** Two outcomes are alike: results related by Q, or the same exception. *)
Definition alike {T U : Type} (Q : T -> U -> Prop) (x : result T) (y : result U) : Prop :=
  match x, y with Ok a, Ok b => Q a b | Err e, Err e' => e = e' | _, _ => False end.

(** The same parcels with the same paths, the same width of the path record and
    the same state of the generator; the discharge sums may differ. *)
Definition same_paths {S : Type} (x : list parcel * qfields (F:=sfloat) * Z * S) (y : list parcel * qfields (F:=R) * Z * S) : Prop :=
  let '(ps, _, width, s) := x in let '(ps', _, width', s') := y in ps = ps' /\ width = width' /\ s = s'.

(** ** A whole routing of water *)
(** The constants of the routing of water have the same values, of moderate size:
    cells between a micrometre and a thousand kilometres, at most a million
    parcels of at most a million steps, dry depth of at least 10^-10, weights and
    relaxations that are fractions, at most ten passes of smoothing. *)
Record same_constants (PF : params sfloat) (PR : params R) : Prop := {
  sc_L : p_L PF = p_L PR; sc_W : p_W PF = p_W PR; sc_CTR : p_CTR PF = p_CTR PR; sc_L0 : p_L0 PF = p_L0 PR;
  sc_stepmax : p_stepmax PF = p_stepmax PR; sc_inlet : p_inlet PF = p_inlet PR; sc_Np : p_Np_water PF = p_Np_water PR;
  sc_itermax : p_itermax PF = p_itermax PR; sc_Nsmooth : p_Nsmooth PF = p_Nsmooth PR;
  sc_rows : (1 <= p_L PR <= 10000)%Z; sc_cols : (1 <= p_W PR <= 10000)%Z; sc_centre : (0 <= p_CTR PR <= 10000)%Z;
  sc_inlet_size : (length (p_inlet PR) <= 900)%nat;
  sc_steps : (p_stepmax PR <= 1000000)%Z; sc_parcels : (p_Np_water PR <= 1000000)%Z;
  sc_iterations : (p_itermax PR <= 6)%Z; sc_passes : (p_Nsmooth PR <= 10)%Z;
  sc_dry : moderate (p_dry_depth PF) (p_dry_depth PR); sc_dry_min : / 10 ^ 10 <= p_dry_depth PR;
  sc_gamma : stands_for (p_gamma PF) (p_gamma PR); sc_gamma_range : 0 <= p_gamma PR <= 1;
  sc_theta : stands_for (p_theta_water PF) (p_theta_water PR);
  sc_theta_range : p_theta_water PR = 0 \/ p_theta_water PR = 1 \/ p_theta_water PR = 2;
  sc_dx : stands_for (p_dx PF) (p_dx PR); sc_dx_range : / 10 ^ 6 <= p_dx PR <= 10 ^ 6;
  sc_Qp : stands_for (p_Qp_water PF) (p_Qp_water PR); sc_Qp_range : Rabs (p_Qp_water PR) <= 10 ^ 15;
  sc_S0 : stands_for (p_S0 PF) (p_S0 PR); sc_S0_range : Rabs (p_S0 PR) <= 1000;
  sc_u0 : moderate (p_u0 PF) (p_u0 PR); sc_h0 : moderate (p_h0 PF) (p_h0 PR); sc_qw0 : moderate (p_qw0 PF) (p_qw0 PR);
  sc_u_max : moderate (p_u_max PF) (p_u_max PR); sc_u_max_pos : 0 <= p_u_max PR;
  sc_Csmooth : stands_for (p_Csmooth PF) (p_Csmooth PR); sc_Csmooth_range : 0 <= p_Csmooth PR <= 1;
  sc_omega_sfc : stands_for (p_omega_sfc PF) (p_omega_sfc PR); sc_omega_sfc_range : 0 <= p_omega_sfc PR <= 1;
  sc_omega_flow : stands_for (p_omega_flow PF) (p_omega_flow PR); sc_omega_flow_range : 0 <= p_omega_flow PR <= 1;
  sc_omega_iter : stands_for (p_omega_flow_iter PF) (p_omega_flow_iter PR); sc_omega_iter_range : 0 <= p_omega_flow_iter PR <= 1
}.

(** What the routing of water reads and writes, in the cells of the domain. *)
Definition fields_stand {S : Type} (ok : sfloat -> R -> Prop) (PR : params R) (stF : state sfloat S) (stR : state R S) : Prop :=
  ok (s_H_SL stF) (s_H_SL stR) /\
  s_cell_type stF = s_cell_type stR /\ s_width stF = s_width stR /\ s_rng stF = s_rng stR /\ s_time_iter stF = s_time_iter stR /\
  forall i j, inb (p_L PR) (p_W PR) i j ->
    ok (s_eta stF i j) (s_eta stR i j) /\ ok (s_stage stF i j) (s_stage stR i j) /\ ok (s_depth stF i j) (s_depth stR i j) /\
    ok (s_mod_water_weight stF i j) (s_mod_water_weight stR i j) /\
    ok (s_qx stF i j) (s_qx stR i j) /\ ok (s_qy stF i j) (s_qy stR i j) /\ ok (s_qw stF i j) (s_qw stR i j) /\
    ok (s_ux stF i j) (s_ux stR i j) /\ ok (s_uy stF i j) (s_uy stR i j) /\ ok (s_uw stF i j) (s_uw stR i j).

(** The state of a model whose fields have moderate values: no negative depth or
    weight, and velocities no longer than eight times the speed. *)
Record same_water {S : Type} (PR : params R) (stF : state sfloat S) (stR : state R S) : Prop := {
  sw_fields : fields_stand moderate PR stF stR;
  sw_depth : forall i j, inb (p_L PR) (p_W PR) i j -> 0 <= s_depth stR i j;
  sw_weight : forall i j, inb (p_L PR) (p_W PR) i j -> 0 <= s_mod_water_weight stR i j;
  sw_speed : forall i j, inb (p_L PR) (p_W PR) i j ->
    0 <= s_uw stR i j /\ Rabs (s_ux stR i j) <= 8 * s_uw stR i j /\ Rabs (s_uy stR i j) <= 8 * s_uw stR i j
}.
