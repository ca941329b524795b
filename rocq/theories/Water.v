(** Model of /repo/pyDeltaRCM/water_tools.py *)
From Coq Require Import ZArith List Bool.
From Verif Require Import Base Shared Params State.
Import ListNotations.
Local Open Scope Z_scope.

Section Water.
  Context {F : Type} {A : Arith F} {S : Type} {G : Rng F S}.
  Variable P : params F.
  Local Notation L := (p_L P).
  Local Notation W := (p_W P).

  (** ** Routing weights *)

  (** water_tools.py:648-651: scale to sum one if the sum is positive. *)
  Definition rebalance (v : vec F) : vec F :=
    let t := vsum v in
    if fltb (fz 0) t then vmemo (fun k => fdiv (v k) t) else v.

  (** water_tools.py:637-641: zero the excluded directions and the centre. *)
  Definition clear_dirs (v : vec F) (m : vec bool) : vec F :=
    vset (vset v m (fz 0)) isctr (fz 0).

  (** water_tools.py:671-693: random walk when no direction is attractive. *)
  Definition water_fallback (dry wall invalid : vec bool) : result (vec F) :=
    let wetvalid : vec bool := fun k => negb (dry k) && negb (invalid k) in
    let nwetvalid := vcount wetvalid in
    do weight <-
      (if 0 <? nwetvalid
       then Ok (vset (fun _ => fz 0) wetvalid (fdiv (fz 1) (fz nwetvalid)))
       else
         let notwall : vec bool := fun k => negb (wall k) in
         let nnotwall := vcount notwall in
         if 0 <? nnotwall
         then Ok (vset (fun _ => fz 0) notwall (fdiv (fz 1) (fz nnotwall)))
         else Err RuntimeError);
    (let t := vsum weight in Ok (vmemo (fun k => fdiv (weight k) t))).

  (** water_tools.py:653-657: combined weight before the final case split. *)
  Definition combined_weight (weight_sfc weight_int depth_nbrs mod_ww : vec F)
      (gamma theta : F) : vec F :=
    let weight := fun k => fadd (fmul gamma (weight_sfc k))
                                (fmul (fsub (fz 1) gamma) (weight_int k)) in
    vset (vmemo (fun k => fmul (fpow (fmul (depth_nbrs k) (mod_ww k)) theta) (weight k)))
         isctr (fz 0).

  (** water_tools.py:614-708 (_get_weight_at_cell_water).  [row0] is
      [ind[0] == 0].  The input arrays are 9-vectors. *)
  Definition get_weight_at_cell_water (row0 : bool) (weight_sfc weight_int : vec F)
      (depth_nbrs mod_ww : vec F) (ct_nbrs : vec Z) (dry_depth gamma theta : F)
      : result (vec F) :=
    let dry : vec bool := fun k => fltb (depth_nbrs k) dry_depth in
    let wall : vec bool := fun k => ct_nbrs k =? -2 in
    let drywall : vec bool := fun k => dry k || wall k in
    let invalid : vec bool :=
      fun k => wall k || isctr k || (row0 && Nat.ltb k 3) in
    let weight_sfc := clear_dirs weight_sfc drywall in
    let weight_int := clear_dirs weight_int drywall in
    if vanynan weight_sfc || vanynan weight_int then Err RuntimeError else
    let weight := combined_weight (rebalance weight_sfc) (rebalance weight_int)
                    depth_nbrs mod_ww gamma theta in
    let total := vsum weight in
    do weight <-
      (if fltb (fz 0) total then Ok (vmemo (fun k => fdiv (weight k) total))
       else if feqb total (fz 0) then
         if wall 4%nat then Ok (fun _ => fz 0)
         else water_fallback dry wall invalid
       else Err RuntimeError);
    if vanynan weight then Err RuntimeError else Ok weight.

  (** water_tools.py:747-780: body of the loop of _get_water_weight_array at
      cell (i, j). *)
  Definition water_weight_cell (depth stage mod_ww : grid F) (cell_type : grid Z)
      (qx qy : grid F) (i j : Z) : result (vec F) :=
    let pad_stage := custom_pad (fz 0) L W stage in
    let pad_depth := custom_pad (fz 0) L W depth in
    let mod_pad := custom_pad (fz 0) L W mod_ww in
    let pad_ct := custom_pad 0 L W cell_type in
    let weight_sfc := get_weight_sfc (stage i j) (window pad_stage i j) in
    let weight_int := get_weight_int (qx i j) (qy i j) in
    get_weight_at_cell_water (i =? 0) (vmemo weight_sfc) (vmemo weight_int)
      (vmemo (window pad_depth i j)) (window mod_pad i j) (window pad_ct i j)
      (p_dry_depth P) (p_gamma P) (p_theta_water P).

  (** First error raised by a function applied to a list of cells. water_tools.py:751-780. *)
  Fixpoint first_err {T} (f : Z -> Z -> result T) (l : list (Z * Z)) : option exn :=
    match l with
    | [] => None
    | (i, j) :: l' => match f i j with Err e => Some e | Ok _ => first_err f l' end
    end.

  (** water_tools.py:714-782 (_get_water_weight_array): an (L, W, 9) array,
      here a function of the cell; raises what any cell raises. *)
  Definition get_water_weight_array (depth stage mod_ww : grid F) (cell_type : grid Z)
      (qx qy : grid F) : result (Z -> Z -> vec F) :=
    let f := gmemo L W (water_weight_cell depth stage mod_ww cell_type qx qy) in
    match first_err f (cells L W) with
    | Some e => Err e
    | None => Ok (fun i j => match f i j with Ok v => v | Err _ => fun _ => fz 0 end)
    end.

  (** ** Parcel stepping *)

  (** One water parcel: its entry in current_inds, its row of
      free_surf_walk_inds (written columns only, most recent first), its
      free_surf_flag, and its entries of the per-step arrays new_direction,
      new_inds and looped. water_tools.py:99-125. *)
  Record parcel : Type := mkParcel {
    cur : Z; walk : list Z; fflag : bool;
    dir : nat; new : Z; looped : bool
  }.

  (** Flat array read with numpy's negative index (numba reads are unchecked;
      an index out of range is an error here). water_tools.py:786-823. *)
  Definition flat_ix (n : Z) : result Z :=
    let n' := wrap (L * W) n in
    if (0 <=? n') && (n' <? L * W) then Ok n' else Err IndexError.

  (** water_tools.py:785-824 (_choose_next_directions) *)
  Fixpoint choose_next_directions (weights : Z -> Z -> vec F) (ps : list parcel) (s : S)
    : result (list parcel * S) :=
    match ps with
    | [] => Ok ([], s)
    | p :: ps' =>
        do (d, s1) <-
          (if cur p =? 0 then Ok (4%nat, s)
           else do n <- flat_ix (cur p);
                random_pick (map (weights (n / W) (n mod W)) D9) s);
        do (rest, s2) <- choose_next_directions weights ps' s1;
        Ok (mkParcel (cur p) (walk p) (fflag p) d (new p) (looped p) :: rest, s2)
    end.

  (** water_tools.py:827-866 (_calculate_new_inds) *)
  Definition calculate_new_ind (ind : Z) (newd : nat) : Z :=
    if Nat.eqb newd 4 then 0 else ind + ravel_walk_flat W newd.
  (** water_tools.py:827-866 *)
  Definition calculate_new_inds (ps : list parcel) : list parcel :=
    map (fun p => mkParcel (cur p) (walk p) (fflag p) (dir p)
                    (calculate_new_ind (cur p) (dir p)) (looped p)) ps.

  (** Flat fields and in-place addition at an index. water_tools.py:413-450, 998-1013. *)
  Definition flatf := Z -> F.
  (** water_tools.py:1003, 1012 *)
  Definition fset (f : flatf) (n : Z) (x : F) : flatf :=
    fun m => if m =? n then x else f m.
  (** Execution only: the same values, tabulated; water_tools.py:413-450 *)
  Definition fmemo (f : flatf) : flatf :=
    let l := map f (zrange (L * W)) in
    fun n => if 0 <=? n then
               match nth_error l (Z.to_nat n) with Some x => x | None => f n end
             else f n.

  (** water_tools.py:998-1004 (_update_dirQfield); [ix] selects current_inds
      or next_inds, [stp] jstep or istep. *)
  Fixpoint update_dirQfield (q : flatf) (ix : parcel -> Z) (stp : nat -> Z)
      (ps : list parcel) : result flatf :=
    match ps with
    | [] => Ok q
    | p :: ps' =>
        let '(dist, _, _, astep) := get_steps (dir p) in
        if astep then
          do n <- flat_ix (ix p);
          update_dirQfield (fset q n (fadd (q n) (fdiv (fz (stp (dir p))) dist))) ix stp ps'
        else update_dirQfield q ix stp ps'
    end.

  (** Discharge half-step carried by one parcel: Qp_water / dx / 2
      (water_tools.py:106, 1012). *)
  Definition half_flux : F := fdiv (fdiv (p_Qp_water P) (p_dx P)) (fz 2).

  (** water_tools.py:1007-1013 (_update_absQfield) *)
  Fixpoint update_absQfield (q : flatf) (ix : parcel -> Z) (ps : list parcel) : result flatf :=
    match ps with
    | [] => Ok q
    | p :: ps' =>
        let '(_, _, _, astep) := get_steps (dir p) in
        if astep then
          do n <- flat_ix (ix p);
          update_absQfield (fset q n (fadd (q n) half_flux)) ix ps'
        else update_absQfield q ix ps'
    end.

  (** The three accumulators qxn, qyn, qwn. water_tools.py:413-450. *)
  Definition qfields := (flatf * flatf * flatf)%type.

  (** water_tools.py:413-450 (update_Q), one of its two halves. *)
  Definition update_Q (q : qfields) (ix : parcel -> Z) (ps : list parcel) : result qfields :=
    let '(qxn, qyn, qwn) := q in
    do qxn <- update_dirQfield qxn ix jwalk_flat ps;
    do qyn <- update_dirQfield qyn ix iwalk_flat ps;
    do qwn <- update_absQfield qwn ix ps;
    Ok (fmemo qxn, fmemo qyn, fmemo qwn).

  (** *** _check_for_loops — water_tools.py:869-995 *)

  (** Relocated position of a parcel that looped at (px0, py0)
      (water_tools.py:968-983).  [stale] is the value the local variables px,
      py still hold from an earlier parcel; they are only reassigned when
      Fw != 0. *)
  Definition relocate (stale : option (Z * Z)) (px0 py0 : Z) : result (Z * Z) :=
    let Fx := px0 - 1 in
    let Fy := py0 - p_CTR P in
    let Fw := fsqrt (fz (Fx * Fx + Fy * Fy)) in
    let pxy :=
      if negb (feqb Fw (fz 0)) then
        Some (px0 + frint (fmul (fdiv (fz Fx) Fw) (fz 5)),
              py0 + frint (fmul (fdiv (fz Fy) Fw) (fz 5)))
      else stale in
    match pxy with
    | None => Err UnboundLocalError
    | Some (px, py) =>
        Ok (Z.min (L - 2) (Z.max px (p_L0 P)), Z.min (W - 2) (Z.max 1 py))
    end.

  (** water_tools.py:952-990: the loop over parcels. *)
  Fixpoint check_loops_from (stage : grid F) (H_SL : F) (stale : option (Z * Z))
      (ps : list parcel) : result (list parcel) :=
    match ps with
    | [] => Ok []
    | p :: ps' =>
        let L0_ind_cut := p_L0 P * W - 1 in
        let relv_walk := filter (fun n => (0 <? n) && (L0_ind_cut <? n)) (walk p) in
        if (0 <? new p) && existsb (fun n => n =? new p) relv_walk then
          do (px0, py0) <- custom_unravel (new p) (L, W);
          do (px, py) <- relocate stale px0 py0;
          do nind <- custom_ravel (px, py) (L, W);
          if inbb L W px0 py0 then
            let at_SL := fltb (fabs (fsub (stage px0 py0) H_SL)) (flit 1 10) in
            do rest <- check_loops_from stage H_SL (Some (px, py)) ps';
            Ok (mkParcel (cur p) (walk p) (fflag p) (dir p) nind (negb at_SL) :: rest)
          else Err IndexError
        else
          do rest <- check_loops_from stage H_SL stale ps';
          Ok (mkParcel (cur p) (walk p) (fflag p) (dir p) (new p) false :: rest)
    end.

  (** water_tools.py:936-995 *)
  Definition check_for_loops (stage : grid F) (H_SL : F) (step : Z) (ps : list parcel)
    : result (list parcel) :=
    if p_L0 P <? step then check_loops_from stage H_SL None ps
    else Ok (map (fun p => mkParcel (cur p) (walk p) (fflag p) (dir p) (new p) false) ps).

  (** water_tools.py:452-469 (check_for_boundary) for one index. *)
  Definition at_boundary (cell_type : grid Z) (n : Z) : result bool :=
    do n' <- flat_ix n; Ok (cell_type (n' / W) (n' mod W) =? -1).

  (** water_tools.py:345-365 (check_size_of_indices_matrix) *)
  Definition check_size_of_indices_matrix (width it : Z) : Z :=
    if width <=? it then width + p_stepmax P / 4 else width.

  (** water_tools.py:161-187: take the step, invalidate looped parcels, record
      the path, retire parcels at the boundary.  Returns the updated parcel
      and whether it is at the boundary. *)
  Definition record_step (cell_type : grid Z) (p : parcel) : result (parcel * bool) :=
    do b <- at_boundary cell_type (new p);
    let recorded := if looped p && b then 0 else new p in
    Ok (mkParcel (if b then 0 else recorded) (recorded :: walk p)
          (fflag p && negb (looped p)) (dir p) (new p) (looped p), b).

  (** A loop whose body may raise, as at water_tools.py:161-187 *)
  Fixpoint mapM {T U} (f : T -> result U) (l : list T) : result (list U) :=
    match l with
    | [] => Ok []
    | x :: l' => do y <- f x; do ys <- mapM f l'; Ok (y :: ys)
    end.

  (** water_tools.py:118-201: one turn of the while loop ([step] already
      incremented). *)
  Definition water_step (weights : Z -> Z -> vec F) (stage : grid F) (H_SL : F)
      (cell_type : grid Z) (step : Z) (st : list parcel * qfields * Z * S)
      : result (list parcel * qfields * Z * S) :=
    let '(ps, q, width, s) := st in
    let width := check_size_of_indices_matrix width step in
    do (ps, s) <- choose_next_directions weights ps s;
    let ps := calculate_new_inds ps in
    do q <- update_Q q cur ps;
    do q <- update_Q q new ps;
    do ps <- check_for_loops stage H_SL step ps;
    do pbs <- mapM (record_step cell_type) ps;
    if step <? width then
      let ps := map fst pbs in
      do q <- update_Q q new (map fst (filter snd pbs));
      Ok (ps, q, width, s)
    else Err IndexError.

  (** sum(current_inds) > 0 — water_tools.py:117 *)
  Definition any_active (ps : list parcel) : bool :=
    0 <? fold_left (fun acc p => acc + cur p) ps 0.

  (** water_tools.py:117-201: the while loop; [fuel] is stepmax - _step. *)
  Fixpoint water_loop (weights : Z -> Z -> vec F) (stage : grid F) (H_SL : F)
      (cell_type : grid Z) (fuel : nat) (step : Z) (st : list parcel * qfields * Z * S)
      : result (list parcel * qfields * Z * S) :=
    match fuel with
    | O => Ok st
    | Datatypes.S fuel' =>
        if any_active (fst (fst (fst st))) then
          do st' <- water_step weights stage H_SL cell_type (step + 1) st;
          water_loop weights stage H_SL cell_type fuel' (step + 1) st'
        else Ok st
    end.

  (** qfield.flat[start_indices] += x: numpy fancy-index addition, applied once
      per distinct index (water_tools.py:104-106). *)
  Definition fancy_add (q : flatf) (starts : list Z) (x : F) : flatf :=
    fun n => if existsb (fun m => m =? n) starts then fadd (q n) x else q n.

  (** water_tools.py:48-50 *)
  Definition zero_flat : flatf := fun _ => fz 0.

  (** water_tools.py:43-59 and 76-201 (init_water_iteration and
      run_water_iteration). Returns the parcels, accumulators, width of the
      path record and generator state. *)
  Definition run_water_iteration (st : state F S)
    : result (list parcel * qfields * Z * S) :=
    do (starts, s) <- get_start_indices (p_inlet P) (get_inlet_weights (p_inlet P))
                         (p_Np_water P) (s_rng st);
    let q := (fancy_add zero_flat starts (fz 1), fancy_add zero_flat starts (fz 0),
              fancy_add zero_flat starts half_flux) in
    if s_width st <=? 0 then Err IndexError else
    let ps := map (fun n => mkParcel n [n] true 4 0 false) starts in
    do weights <- get_water_weight_array (s_depth st) (s_stage st) (s_mod_water_weight st)
                    (s_cell_type st) (s_qx st) (s_qy st);
    water_loop weights (s_stage st) (s_H_SL st) (s_cell_type st)
      (Z.to_nat (p_stepmax P)) 0 (ps, q, s_width st, s).

  (** ** Free surface *)

  (** unravel with the subsequent array accesses checked — water_tools.py:1061-1119 *)
  Definition unravel_in (n : Z) : result (Z * Z) :=
    do (i, j) <- custom_unravel n (L, W);
    if inbb L W i j then Ok (i, j) else Err IndexError.

  (** water_tools.py:1082-1119: walking back along one path.  (ip, jp) is the
      cell downstream of the head of [rest]. *)
  Fixpoint walk_back (u0 h0 S0 dx : F) (uw ux uy depth : grid F)
      (in_ocean : bool) (dH : F) (ip jp : Z) (rest : list (Z * Z))
      (H visit total : grid F) : grid F * grid F :=
    match rest with
    | [] => (visit, total)
    | (i, j) :: rest' =>
        let moved := negb (i =? ip) || negb (j =? jp) in
        let shore := fltb (fmul u0 (flit 1 2)) (uw i j)
                     || fltb (depth i j) (fmul (flit 1 10) h0) in
        let in_ocean' := if moved && in_ocean && shore then false else in_ocean in
        let dH' :=
          if moved && negb in_ocean then
            if feqb (uw i j) (fz 0) then fz 0
            else fdiv (fmul S0 (fadd (fmul (fmul (ux i j) (fz (ip - i))) dx)
                                     (fmul (fmul (uy i j) (fz (jp - j))) dx)))
                      (uw i j)
          else dH in
        let H := gset H i j (fadd (H ip jp) dH') in
        let visit := gset visit i j (fadd (visit i j) (fz 1)) in
        let total := gset total i j (fadd (total i j) (H i j)) in
        walk_back u0 h0 S0 dx uw ux uy depth in_ocean' dH' i j rest' H visit total
    end.

  (** water_tools.py:1064-1119: one parcel. *)
  Definition accumulate_one (st : state F S) (p : parcel) (vt : grid F * grid F)
    : result (grid F * grid F) :=
    do xys <- mapM unravel_in (filter (fun n => 0 <? n) (walk p));
    match xys with
    | [] => Err IndexError
    | (xl, yl) :: rest =>
        if (s_cell_type st xl yl =? -1) && fflag p then
          let H := gset (fun _ _ => fz 0) xl yl (s_H_SL st) in
          Ok (walk_back (p_u0 P) (p_h0 P) (p_S0 P) (p_dx P) (s_uw st) (s_ux st) (s_uy st)
                (s_depth st) true (fz 0) xl yl rest H (fst vt) (snd vt))
        else Ok vt
    end.

  (** water_tools.py:1016-1120 (_accumulate_free_surface_walks) *)
  Fixpoint accumulate_free_surface_walks (st : state F S) (ps : list parcel)
      (vt : grid F * grid F) : result (grid F * grid F) :=
    match ps with
    | [] => Ok vt
    | p :: ps' =>
        do (v, t) <- accumulate_one st p vt;
        accumulate_free_surface_walks st ps' (gmemo L W v, gmemo L W t)
    end.

  (** water_tools.py:280-292: new free surface at a cell. *)
  Definition hnew_cell (eta depth visit total H_SL : F) : F :=
    let h := fadd eta depth in
    let h := if fltb (fz 0) visit then fdiv total visit else h in
    let h := if fltb h H_SL then H_SL else h in
    if fltb h eta then eta else h.

  (** water_tools.py:1160-1191: smoothing of one cell. *)
  Definition smooth_cell (Csmooth : F) (cell_type : grid Z) (H : grid F) (i j : Z) : F :=
    if cell_type i j =? -1 then H i j else
    let ct_nbrs := window (custom_pad 0 L W cell_type) i j in
    let invalid : vec bool := fun k => (ct_nbrs k =? -2) || isctr k in
    let nbrs := vset (window (custom_pad (fz 0) L W H) i j) invalid (fz 0) in
    let sumH := vsum nbrs in
    let nbcount := vcount (fun k => negb (invalid k)) in
    if 0 <? nbcount then
      fadd (fmul Csmooth (H i j))
           (fmul (fsub (fz 1) Csmooth) (fdiv sumH (fz nbcount)))
    else H i j.

  (** water_tools.py:1123-1195 (_smooth_free_surface): each pass reads the
      previous pass only (Hsmth is a copy). *)
  Fixpoint smooth_passes (Csmooth : F) (cell_type : grid Z) (n : nat) (H : grid F) : grid F :=
    match n with
    | O => H
    | Datatypes.S n' =>
        smooth_passes Csmooth cell_type n' (gmemo L W (smooth_cell Csmooth cell_type H))
    end.
  (** water_tools.py:1123-1195 *)
  Definition smooth_free_surface (H : grid F) (cell_type : grid Z) (Nsmooth : Z) (Csmooth : F)
    : grid F := smooth_passes Csmooth cell_type (Z.to_nat Nsmooth) H.

  (** *** build_weight_array — water_tools.py:571-611 *)

  (** Row and column displacement of plane n (E NE N NW W SW S SE),
      water_tools.py:583-590. *)
  Definition nb_di (n : nat) : Z := nth n [0; -1; -1; -1; 0; 1; 1; 1] 0.
  (** water_tools.py:583-590 *)
  Definition nb_dj (n : nat) : Z := nth n [1; 1; 0; -1; -1; -1; 0; 1] 0.

  (** The shifted copies: zero ([d]) where the neighbour is outside. water_tools.py:571-590. *)
  Definition shift_plane {T} (d : T) (a : grid T) (n : nat) : grid T :=
    fun i j => if inbb L W (i + nb_di n) (j + nb_dj n)
               then a (i + nb_di n) (j + nb_dj n) else d.

  (** water_tools.py:591-612 *)
  Definition copy_col {T} (pl : grid T) (dst src : Z) : grid T :=
    fun i j => if j =? dst then pl i src else pl i j.
  (** water_tools.py:591-612 *)
  Definition copy_row {T} (pl : grid T) (dst src : Z) : grid T :=
    fun i j => if i =? dst then pl src j else pl i j.

  (** water_tools.py:592-604 (fix_edges): the twelve edge copies, grouped by
      plane (the planes do not interact), in program order within a plane. *)
  Definition fix_edges {T} (pl : nat -> grid T) : nat -> grid T :=
    fun n => match n with
    | 0 => copy_col (pl n) (W - 1) (W - 2)
    | 1 => copy_row (copy_col (pl n) (W - 1) (W - 2)) 0 1
    | 2 => copy_row (pl n) 0 1
    | 3 => copy_col (copy_row (pl n) 0 1) 0 1
    | 4 => copy_col (pl n) 0 1
    | 5 => copy_row (copy_col (pl n) 0 1) (L - 1) (L - 2)
    | 6 => copy_row (pl n) (L - 1) (L - 2)
    | 7 => copy_row (copy_col (pl n) (W - 1) (W - 2)) (L - 1) (L - 2)
    | _ => pl n
    end%nat.

  (** *** flooding_correction — water_tools.py:525-569 *)
  Definition D8 : list nat := seq 0 8.

  (** water_tools.py:545-558: stage after visiting one shore cell. *)
  Definition flood_one (wet_nh : nat -> grid bool) (stage_nhs : nat -> grid F)
      (eta : grid F) (i j : Z) (stage : grid F) : grid F :=
    let stage_nh := map (fun n => fmul (if wet_nh n i j then fz 1 else fz 0)
                                       (stage_nhs n i j)) D8 in
    if existsb (fun x => fltb (eta i j) x) stage_nh
    then gset stage i j (fold_left fmax (tl stage_nh) (hd (fz 0) stage_nh))
    else stage.

  (** water_tools.py:525-558 *)
  Definition flooding_correction (depth eta stage : grid F) : grid F :=
    let wet_mask := fun i j => fltb (p_dry_depth P) (depth i j) in
    let wet_nh := fix_edges (shift_plane false wet_mask) in
    let stage_nhs := shift_plane (fz 0) stage in
    let shore := filter (fun ij => negb (wet_mask (fst ij) (snd ij))
                          && existsb (fun n => wet_nh n (fst ij) (snd ij)) D8) (cells L W) in
    gmemo L W
      (fold_left (fun s ij => flood_one wet_nh stage_nhs eta (fst ij) (snd ij) s) shore stage).

  (** water_tools.py:203-324 (compute_free_surface, finalize_free_surface) *)
  Definition compute_free_surface (ps : list parcel) (st : state F S) : result (state F S) :=
    do (visit, total) <- accumulate_free_surface_walks st ps
                           ((fun _ _ => fz 0), (fun _ _ => fz 0));
    let hnew := gmemo L W (fun i j =>
      hnew_cell (s_eta st i j) (s_depth st i j) (visit i j) (total i j) (s_H_SL st)) in
    let st := set_sfc_visit visit (set_sfc_sum total (set_Hnew hnew st)) in
    let hs := smooth_free_surface hnew (s_cell_type st) (p_Nsmooth P) (p_Csmooth P) in
    let stage :=
      if 0 <? s_time_iter st then
        gmemo L W (fun i j => fadd (fmul (fsub (fz 1) (p_omega_sfc P)) (s_stage st i j))
                                   (fmul (p_omega_sfc P) (hs i j)))
      else s_stage st in
    Ok (set_stage (flooding_correction (s_depth st) (s_eta st) stage) st).

  (** ** Flow fields *)

  (** np.sqrt(a**2 + b**2) — water_tools.py:480, 499 *)
  Definition hypot (a b : F) : F := fsqrt (fadd (fmul a a) (fmul b b)).

  (** water_tools.py:480-486: discharge-scaled direction at a cell. *)
  Definition qn_scaled (qxn qyn qwn : F) : F * F :=
    let dloc := hypot qxn qyn in
    let d := if fltb (fz 0) dloc then fdiv qwn dloc else fz 1 in
    (fmul qxn d, fmul qyn d).

  (** water_tools.py:501-503 *)
  Definition in_inlet (j : Z) : bool := existsb (fun c => c =? j) (p_inlet P).

  (** water_tools.py:471-504 (update_flow_field) *)
  Definition update_flow_field (iteration : Z) (st : state F S) : state F S :=
    let qn := gmemo L W (fun i j => qn_scaled (s_qxn st i j) (s_qyn st i j) (s_qwn st i j)) in
    let omega := if iteration =? 0 then p_omega_flow P else p_omega_flow_iter P in
    let relax (n o : F) := fadd (fmul n omega) (fmul o (fsub (fz 1) omega)) in
    let qx i j := if 0 <? s_time_iter st then relax (fst (qn i j)) (s_qx st i j)
                  else fst (qn i j) in
    let qy i j := if 0 <? s_time_iter st then relax (snd (qn i j)) (s_qy st i j)
                  else snd (qn i j) in
    let qx := gmemo L W qx in
    let qy := gmemo L W qy in
    let qw i j := hypot (qx i j) (qy i j) in
    let inl i j := (i =? 0) && in_inlet j in
    set_qxn (fun i j => fst (qn i j)) (set_qyn (fun i j => snd (qn i j))
    (set_qx (gmemo L W (fun i j => if inl i j then p_qw0 P else qx i j))
    (set_qy (gmemo L W (fun i j => if inl i j then fz 0 else qy i j))
    (set_qw (gmemo L W (fun i j => if inl i j then p_qw0 P else qw i j)) st)))).

  (** water_tools.py:506-523 (update_velocity_field) at a cell:
      (uw, ux, uy). *)
  Definition velocity_cell (dry_depth u_max depth qw qx qy : F) : F * F * F :=
    if fltb dry_depth depth && fltb (fz 0) qw then
      let u := npmin u_max (fdiv qw depth) in
      (u, fdiv (fmul u qx) qw, fdiv (fmul u qy) qw)
    else (fz 0, fz 0, fz 0).
  (** water_tools.py:506-523, all cells *)
  Definition update_velocity_field (st : state F S) : state F S :=
    let v := gmemo L W (fun i j => velocity_cell (p_dry_depth P) (p_u_max P)
               (s_depth st i j) (s_qw st i j) (s_qx st i j) (s_qy st i j)) in
    set_uw (fun i j => fst (fst (v i j)))
    (set_ux (fun i j => snd (fst (v i j)))
    (set_uy (fun i j => snd (v i j)) st)).

  (** water_tools.py:326-343 (finalize_water_iteration) *)
  Definition finalize_water_iteration (iteration : Z) (st : state F S) : state F S :=
    let st := set_stage (gmemo L W (fun i j => npmax (s_stage st i j) (s_H_SL st))) st in
    let st := set_depth (gmemo L W (fun i j => npmax (fsub (s_stage st i j) (s_eta st i j)) (fz 0))) st in
    update_velocity_field (update_flow_field iteration st).

  (** water_tools.py:29-41: one pass of the loop of route_water. *)
  Definition water_iteration (iteration : Z) (st : state F S) : result (state F S) :=
    do (ps, q, width, s) <- run_water_iteration st;
    let '(qxn, qyn, qwn) := q in
    let st := set_width width (set_rng s
      (set_qxn (fun i j => qxn (i * W + j))
      (set_qyn (fun i j => qyn (i * W + j))
      (set_qwn (fun i j => qwn (i * W + j)) st)))) in
    do st <- compute_free_surface ps st;
    Ok (finalize_water_iteration iteration st).

  (** water_tools.py:11-41 (route_water): [range(itermax)] from [it]. *)
  Fixpoint water_iterations (n : nat) (it : Z) (st : state F S) : result (state F S) :=
    match n with
    | O => Ok st
    | Datatypes.S n' => do st <- water_iteration it st; water_iterations n' (it + 1) st
    end.
  (** water_tools.py:11-41 (route_water) *)
  Definition route_water (st : state F S) : result (state F S) :=
    water_iterations (Z.to_nat (p_itermax P)) 0 st.
End Water.
