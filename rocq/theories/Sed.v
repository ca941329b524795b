(** Model of /repo/pyDeltaRCM/sed_tools.py *)
From Coq Require Import ZArith List Bool.
From Verif Require Import Base Shared Params State.
Import ListNotations.
Local Open Scope Z_scope.

(** The two routers: SandRouter (sed_tools.py:565) and MudRouter
    (sed_tools.py:818). *)
Inductive grain : Type := Sand | Mud.

(** The fields a router changes in place (sed_tools.py:677-693, 899-914):
    eta, depth, pad_depth, uw, ux, uy, qs, Vp_dep_sand, Vp_dep_mud. *)
Record bed (F : Type) : Type := mkBed {
  b_eta : grid F; b_depth : grid F; b_pad_depth : grid F;
  b_uw : grid F; b_ux : grid F; b_uy : grid F;
  b_qs : grid F; b_sand : grid F; b_mud : grid F
}.
Arguments mkBed {F}.
Arguments b_eta {F}. Arguments b_depth {F}. Arguments b_pad_depth {F}.
Arguments b_uw {F}. Arguments b_ux {F}. Arguments b_uy {F}.
Arguments b_qs {F}. Arguments b_sand {F}. Arguments b_mud {F}.

Section Sed.
  Context {F : Type} {A : Arith F} {S : Type} {G : Rng F S} (P : params F).
  Notation L := (p_L P).
  Notation W := (p_W P).

  (** ** Routing weights — sed_tools.py:249-312 (_get_weight_at_cell_sediment) *)
  Definition get_weight_at_cell_sediment (weight_int depth_nbrs : vec F) (ct_nbrs : vec Z)
      (dry_depth theta : F) (mod_sed_weight : vec F) : result (vec F) :=
    let dry : vec bool := fun k => fleb (depth_nbrs k) dry_depth in
    let wall : vec bool := fun k => ct_nbrs k =? -2 in
    let drywall : vec bool := fun k => dry k || wall k in
    let weight_int := vset weight_int isctr (fz 0) in
    let weight : vec F := fun k =>
      fmul (fpow (fmul (depth_nbrs k) (mod_sed_weight k)) theta) (weight_int k) in
    let weight := vmemo (vset (vset weight isctr (fz 0)) drywall (fz 0)) in
    if vanynan weight then Err RuntimeError else
    let weight := if feqb (vsum weight) (fz 0)
                  then vset (fun k => fdiv (fz 1) (distances_flat k)) wall (fz 0)
                  else weight in
    let weight := vmemo (vset weight isctr (fz 0)) in
    let total := vsum weight in
    if feqb total (fz 0) then Err RuntimeError
    else Ok (vmemo (fun k => fdiv (weight k) total)).

  (** sed_tools.py:410: np.isfinite fails: NaN or an infinity (inf - inf is
      NaN). *)
  Definition nonfinite (x : F) : bool := fnan (fsub x x).

  (** init_tools.py:608, 629: theta_sed of a router. *)
  Definition theta_of (g : grain) : F :=
    match g with Sand => p_theta_sand P | Mud => p_theta_mud P end.

  (** sed_tools.py:391-422: the weights of the nine directions from (px, py).
      [st] holds the fields the routers only read. *)
  Definition sed_weights (g : grain) (st : state F S) (b : bed F) (px py : Z) : result (vec F) :=
    let depth_nbrs := vmemo (window (b_pad_depth b) px py) in
    let ct_nbrs := window (custom_pad 0 L W (s_cell_type st)) px py in
    let msw := window (custom_pad (fz 0) L W (s_mod_sed_weight st)) px py in
    let weight_int := vmemo (get_weight_int (s_qx st px py) (s_qy st px py)) in
    if vanynan weight_int then Err RuntimeError else
    if existsb (fun k => nonfinite (depth_nbrs k)) D9 then Err RuntimeError else
    get_weight_at_cell_sediment weight_int depth_nbrs ct_nbrs (p_dry_depth P) (theta_of g) msw.

  (** sed_tools.py:390-430 (_choose_next_location).  Outside the grid the 3x3
      slices have the wrong shape and the broadcast fails. *)
  Definition choose_next_location (g : grain) (st : state F S) (b : bed F) (px py : Z) (s : S)
    : result (nat * S) :=
    if inbb L W px py then
      do w <- sed_weights g st b px py;
      random_pick (map w D9) s
    else Err ValueError.

  (** self.field[px, py] in sed_tools.py:746-750, 937-940: array indexing with
      numpy's negative indices; numba does not check the upper bound, here an
      index outside the array is an error. *)
  Definition cell_ix (px py : Z) : result (Z * Z) :=
    let i := wrap L px in let j := wrap W py in
    if inbb L W i j then Ok (i, j) else Err IndexError.

  (** ** Volumes *)

  (** sed_tools.py:508-542 (_compute_Vp_ero) *)
  Definition compute_Vp_ero (Vp_sed U_loc U_ero beta mod_erosion : F) : F :=
    fdiv (fmul (fmul mod_erosion Vp_sed) (fsub (fpow U_loc beta) (fpow U_ero beta)))
         (fpow U_ero beta).

  (** sed_tools.py:544-561 (_limit_Vp_change); [ero] is dep_ero == 1. *)
  Definition limit_Vp_change (Vp stage eta dx : F) (ero : bool) : F :=
    let depth := fsub stage eta in
    if fltb depth (fz 0) then
      if ero then npmin Vp (fmul (fdiv (fabs depth) (fz 4)) (fmul dx dx)) else fz 0
    else npmin Vp (fmul (fdiv depth (fz 4)) (fmul dx dx)).

  (** sed_tools.py:779-807: volume change of sand at cell (i, j). *)
  Definition sand_change (st : state F S) (b : bed F) (Vp_res : F) (i j : Z) : F :=
    let U_loc := b_uw b i j in
    let qs_cap := fmul (fdiv (fmul (p_qs0 P) (p_f_bedload_router P)) (fpow (p_u0 P) (p_beta P)))
                       (fpow U_loc (p_beta P)) in
    let qs_loc := b_qs b i j in
    if fltb qs_cap qs_loc then
      limit_Vp_change Vp_res (s_stage st i j) (b_eta b i j) (p_dx P) false
    else if fltb (p_U_ero_sand P) U_loc && fltb qs_loc qs_cap then
      fmul (limit_Vp_change
              (compute_Vp_ero (p_Vp_sed P) U_loc (p_U_ero_sand P) (p_beta P) (s_mod_erosion st i j))
              (s_stage st i j) (b_eta b i j) (p_dx P) true) (fz (-1))
    else fz 0.

  (** sed_tools.py:952-974: volume change of mud at cell (i, j). *)
  Definition mud_change (st : state F S) (b : bed F) (Vp_res : F) (i j : Z) : F :=
    let U_loc := b_uw b i j in
    let dep :=
      if fltb U_loc (p_U_dep_mud P) then
        limit_Vp_change
          (fdiv (fmul (fmul (p_lambda P) Vp_res)
                   (fsub (fpow (p_U_dep_mud P) (p_beta P)) (fpow U_loc (p_beta P))))
                (fpow (p_U_dep_mud P) (p_beta P)))
          (s_stage st i j) (b_eta b i j) (p_dx P) false
      else fz 0 in
    if fltb (p_U_ero_mud P) U_loc then
      fmul (limit_Vp_change
              (compute_Vp_ero (p_Vp_sed P) U_loc (p_U_ero_mud P) (p_beta P) (s_mod_erosion st i j))
              (s_stage st i j) (b_eta b i j) (p_dx P) true) (fz (-1))
    else dep.

  (** sed_tools.py:441-506 (_update_fields) at the cell (i, j) denoted by
      (px, py); only pad_depth is indexed by px + 1, py + 1. *)
  Definition update_fields (st : state F S) (b : bed F) (Vp_change : F) (px py i j : Z) : bed F :=
    let qw0 := s_qw st i j in
    let eta_change := fdiv Vp_change (fmul (p_dx P) (p_dx P)) in
    let eta := fadd (b_eta b i j) eta_change in
    let depth := npmax (fz 0) (fsub (s_stage st i j) eta) in
    let uw := if fltb (fz 0) depth then npmin (p_u_max P) (fdiv qw0 depth) else b_uw b i j in
    let ux := if fltb (fz 0) qw0 then fdiv (fmul uw (s_qx st i j)) qw0 else fz 0 in
    let uy := if fltb (fz 0) qw0 then fdiv (fmul uw (s_qy st i j)) qw0 else fz 0 in
    mkBed (gset (b_eta b) i j eta) (gset (b_depth b) i j depth)
          (gset (b_pad_depth b) (px + 1) (py + 1) depth)
          (gset (b_uw b) i j uw) (gset (b_ux b) i j ux) (gset (b_uy b) i j uy)
          (b_qs b) (b_sand b) (b_mud b).

  (** sed_tools.py:809-814, 976-981: record the deposit, update the parcel
      and the fields. *)
  Definition deposit_or_erode (g : grain) (st : state F S) (b : bed F) (Vp_res : F)
      (px py i j : Z) : bed F * F :=
    let dV := match g with
              | Sand => sand_change st b Vp_res i j
              | Mud => mud_change st b Vp_res i j
              end in
    let dep (f : grid F) := if fltb (fz 0) dV then gset f i j (fadd (f i j) dV) else f in
    let b := match g with
             | Sand => mkBed (b_eta b) (b_depth b) (b_pad_depth b) (b_uw b) (b_ux b) (b_uy b)
                         (b_qs b) (dep (b_sand b)) (b_mud b)
             | Mud => mkBed (b_eta b) (b_depth b) (b_pad_depth b) (b_uw b) (b_ux b) (b_uy b)
                         (b_qs b) (b_sand b) (dep (b_mud b))
             end in
    (update_fields st b dV px py i j, fsub Vp_res dV).

  (** assignment to self.qs (sed_tools.py:702, 761-762) *)
  Definition set_qs_bed (b : bed F) (qs : grid F) : bed F :=
    mkBed (b_eta b) (b_depth b) (b_pad_depth b) (b_uw b) (b_ux b) (b_uy b) qs (b_sand b) (b_mud b).

  (** Vp_res / 2.0 / dt / dx — sed_tools.py:702, 759 *)
  Definition flux_part (Vp_res : F) : F :=
    fdiv (fdiv (fdiv Vp_res (fz 2)) (p_dt P)) (p_dx P).

  (** self.qs[px, py] += partition — sed_tools.py:702, 761-762 *)
  Definition add_at (f : grid F) (i j : Z) (x : F) : grid F := gset f i j (fadd (f i j) x).

  (** sed_tools.py:755-762 (_partition_sediment), sand only. *)
  Definition partition_sediment (b : bed F) (Vp_res : F) (i0 j0 i j : Z) (dist : F) : bed F :=
    let partition := flux_part Vp_res in
    if fltb (fz 0) dist
    then set_qs_bed b (add_at (add_at (b_qs b) i0 j0 partition) i j partition)
    else b.

  (** numba raises ZeroDivisionError for a scalar division by zero: the
      divisors of sed_tools.py:484, 542, 781 (sand), 961 (mud) at cell (i, j). *)
  Definition zero_divisor (g : grain) (st : state F S) (b : bed F) (i j : Z) : bool :=
    let U_loc := b_uw b i j in
    let vanishes x := feqb x (fz 0) in
    vanishes (fmul (p_dx P) (p_dx P)) ||
    match g with
    | Sand =>
        let scale := fpow (p_u0 P) (p_beta P) in
        let qs_cap := fmul (fdiv (fmul (p_qs0 P) (p_f_bedload_router P)) scale) (fpow U_loc (p_beta P)) in
        let qs_loc := b_qs b i j in
        vanishes scale ||
        (negb (fltb qs_cap qs_loc) && (fltb (p_U_ero_sand P) U_loc && fltb qs_loc qs_cap)
           && vanishes (fpow (p_U_ero_sand P) (p_beta P)))
    | Mud =>
        (fltb U_loc (p_U_dep_mud P) && vanishes (fpow (p_U_dep_mud P) (p_beta P))) ||
        (fltb (p_U_ero_mud P) U_loc && vanishes (fpow (p_U_ero_mud P) (p_beta P)))
    end.

  (** ** Routing *)

  (** sed_tools.py:737-747, 932-937: one turn of the while loop; the new
      position, fields, carried volume and generator. *)
  Definition sed_step (g : grain) (st : state F S) (b : bed F) (Vp_res : F) (px0 py0 : Z) (s : S)
    : result (Z * Z * bed F * F * S) :=
    do (k, s') <- choose_next_location g st b px0 py0 s;
    let '(dist, istep, jstep, _) := get_steps k in
    let px := px0 + jstep in
    let py := py0 + istep in
    do (i0, j0) <- cell_ix px0 py0;
    do (i, j) <- cell_ix px py;
    let b1 := match g with
              | Sand => partition_sediment b Vp_res i0 j0 i j dist
              | Mud => b
              end in
    if zero_divisor g st b1 i j then Err ZeroDivisionError else
    let (b2, V) := deposit_or_erode g st b1 Vp_res px py i j in
    Ok (px, py, b2, V, s').

  (** sed_tools.py:705-753, 925-943 (_route_one_parcel).  [fuel] is
      stepmax - it.  With stepmax <= 0 the code's loop ends only at an edge
      cell; that case is outside the model (an error here). *)
  Fixpoint route_one_parcel (g : grain) (st : state F S) (fuel : nat) (b : bed F) (Vp_res : F)
      (px py : Z) (s : S) : result (bed F * F * S) :=
    match fuel with
    | O => Err RuntimeError
    | Datatypes.S n =>
        do (px', py', b', V', s') <- sed_step g st b Vp_res px py s;
        do (i, j) <- cell_ix px' py';
        if (s_cell_type st i j =? -1) || Nat.eqb n 0 then Ok (b', V', s')
        else route_one_parcel g st n b' V' px' py' s'
    end.

  (** Division by zero at sed_tools.py:702. *)
  Definition no_flux_scale (g : grain) : bool :=
    match g with
    | Sand => feqb (p_dt P) (fz 0) || feqb (p_dx P) (fz 0)
    | Mud => false
    end.

  (** sed_tools.py:695-703, 916-923: the loop over parcels.  Returns also the
      volume each parcel still carries when it stops (self.Vp_res, which the
      code overwrites for the next parcel). *)
  Fixpoint route_parcels (g : grain) (st : state F S) (starts : list Z) (b : bed F) (s : S)
    : result (bed F * list F * S) :=
    match starts with
    | [] => Ok (b, [], s)
    | py :: starts' =>
        do (i, j) <- cell_ix 0 py;
        if no_flux_scale g then Err ZeroDivisionError else
        let b1 := match g with
                  | Sand => set_qs_bed b (add_at (b_qs b) i j (flux_part (p_Vp_sed P)))
                  | Mud => b
                  end in
        do (b2, V, s2) <- route_one_parcel g st (Z.to_nat (p_stepmax P)) b1 (p_Vp_sed P) 0 py s;
        do (b3, Vs, s3) <- route_parcels g st starts' b2 s2;
        Ok (b3, V :: Vs, s3)
    end.

  (** sed_tools.py:121, 189: number of parcels of a grain. *)
  Definition num_starts (g : grain) : Z :=
    match g with
    | Sand => ftrunc (fmul (fz (p_Np_sed P)) (p_f_bedload P))
    | Mud => ftrunc (fmul (fz (p_Np_sed P)) (fsub (fz 1) (p_f_bedload P)))
    end.

  (** Fields handed to a router (sed_tools.py:677-693, 899-914). *)
  Definition bed_of (st : state F S) : bed F :=
    mkBed (s_eta st) (s_depth st) (custom_pad (fz 0) L W (s_depth st))
          (s_uw st) (s_ux st) (s_uy st) (s_qs st) (s_Vp_dep_sand st) (s_Vp_dep_mud st).

  (** Fields copied back from a router (sed_tools.py:154-162, 221-228);
      memoised for execution only. *)
  Definition put_bed (b : bed F) (st : state F S) : state F S :=
    set_Vp_dep_mud (gmemo L W (b_mud b)) (set_Vp_dep_sand (gmemo L W (b_sand b))
    (set_eta (gmemo L W (b_eta b)) (set_depth (gmemo L W (b_depth b))
    (set_uw (gmemo L W (b_uw b)) (set_ux (gmemo L W (b_ux b)) (set_uy (gmemo L W (b_uy b))
    (set_qs (gmemo L W (b_qs b)) st))))))).

  (** sed_tools.py:96-162, 164-228 (route_all_sand_parcels,
      route_all_mud_parcels); also returns the residual volumes. *)
  Definition route_all_parcels_res (g : grain) (st : state F S) : result (state F S * list F) :=
    do (starts, s) <- get_start_indices (p_inlet P) (get_inlet_weights (p_inlet P))
                        (num_starts g) (s_rng st);
    do (b, Vs, s') <- route_parcels g st starts (bed_of st) s;
    Ok (set_rng s' (put_bed b st), Vs).
  (** The same without the residual volumes. sed_tools.py:96-162, 164-228. *)
  Definition route_all_parcels (g : grain) (st : state F S) : result (state F S) :=
    do (st', _) <- route_all_parcels_res g st; Ok st'.

  (** ** Topographic diffusion — sed_tools.py:230-246 *)

  (** sed_tools.py:237-239: ndimage.convolve(f, kernel, mode="constant") for a symmetric 3x3 kernel:
      values outside the grid are 0.  (scipy accumulates in double.) *)
  Definition convolve (kernel : nat -> Z) (f : grid F) : grid F :=
    fun i j => vsum (fun k =>
      fmul (fz (kernel k))
           (if inbb L W (i + jwalk_flat k) (j + iwalk_flat k)
            then f (i + jwalk_flat k) (j + iwalk_flat k) else fz 0)).
  (** init_tools.py:388 *)
  Definition kernel1 (k : nat) : Z := if Nat.eqb k 4 then -8 else 1.
  (** init_tools.py:390 *)
  Definition kernel2 (k : nat) : Z := if Nat.eqb k 4 then 0 else 1.

  (** sed_tools.py:237-244: the crossflux field. *)
  Definition crossflux (st : state F S) (eta : grid F) : grid F := fun i j =>
    let qs := s_qs st in
    let a := convolve kernel1 eta in
    let b := convolve kernel2 qs in
    let c := convolve kernel2 (fun x y => fmul (qs x y) (eta x y)) in
    if (s_cell_type st i j =? -2) || (i =? 0) then fz 0
    else fmul (p_diffusion_multiplier P)
           (fadd (fsub (fmul (qs i j) (a i j)) (fmul (eta i j) (b i j))) (c i j)).

  (** sed_tools.py:236-246: one pass. *)
  Definition diffuse_once (st : state F S) : state F S :=
    let cf := gmemo L W (crossflux st (s_eta st)) in
    set_cf cf (set_eta (gmemo L W (fun i j => fadd (s_eta st i j) (cf i j))) st).
  (** sed_tools.py:236: the loop; topo_diffusion is sed_tools.py:230-246. *)
  Fixpoint diffuse_passes (n : nat) (st : state F S) : state F S :=
    match n with
    | O => st
    | Datatypes.S n' => diffuse_passes n' (diffuse_once st)
    end.
  (** sed_tools.py:230-246 *)
  Definition topo_diffusion (st : state F S) : state F S :=
    diffuse_passes (Z.to_nat (p_N_crossdiff P)) st.

  (** sed_tools.py:63-77 (init_sediment_iteration); pad_depth is rebuilt by
      the routers. *)
  Definition init_sediment_iteration (st : state F S) : state F S :=
    set_qs (fun _ _ => fz 0) (set_Vp_dep_sand (fun _ _ => fz 0) (set_Vp_dep_mud (fun _ _ => fz 0) st)).

  (** sed_tools.py:18-49 (route_sediment) *)
  Definition route_sediment (st : state F S) : result (state F S) :=
    let st := init_sediment_iteration st in
    do st <- route_all_parcels Sand st;
    let st := topo_diffusion st in
    route_all_parcels Mud st.
End Sed.
