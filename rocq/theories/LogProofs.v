(** Proofs about the log. *)
From Coq Require Import ZArith NArith List Bool String Lia.
From Verif Require Import Base Shared Params State Water Sed Iter Inputs Init InitSpec InitProofs Session SessionProofs
  Dict Text Config RunProofs FrameProofs WaterSpec SedSpec Log LogSpec.
Import ListNotations.
Local Open Scope string_scope.
Local Open Scope Z_scope.

Lemma lbind_snd {F T U} (m : logged F T) (k : T -> logged F U) :
  snd (lbind m k) = rbind (snd m) (fun x => snd (k x)).
Proof. destruct m as [l [x|e]]; cbn; [destruct (k x)|]; reflexivity. Qed.

(** ** Leaving lines out *)
Lemma lo_refl {T} (l : list T) : leaves_out l l.
Proof. induction l; constructor; auto. Qed.
Lemma lo_none {T} (l : list T) : leaves_out [] l.
Proof. induction l; constructor; auto. Qed.
Lemma lo_app {T} (a a' b b' : list T) : leaves_out a a' -> leaves_out b b' -> leaves_out (a ++ b) (a' ++ b').
Proof. induction 1; intros; cbn; auto; constructor; auto. Qed.
Lemma lo_length {T} (a b : list T) : leaves_out a b -> (List.length a <= List.length b)%nat.
Proof. induction 1; cbn; lia. Qed.
Lemma lo_eq_length {T} (a b : list T) : leaves_out a b -> List.length a = List.length b -> a = b.
Proof.
  induction 1 as [|x l l' H IH|x l l' H IH]; cbn; intros E; [reflexivity| |].
  - f_equal. apply IH. lia.
  - apply lo_length in H. lia.
Qed.
Lemma lo_antisym {T} (a b : list T) : leaves_out a b -> leaves_out b a -> a = b.
Proof. intros H K. apply lo_eq_length; auto. apply lo_length in H, K. lia. Qed.

Section Generic.
  Context {F : Type}.

  (** Same end, fewer lines. *)
  Definition quieter {T} (m m' : logged F T) : Prop := snd m = snd m' /\ leaves_out (fst m) (fst m').
  Lemma quieter_refl {T} (m : logged F T) : quieter m m.
  Proof. split; [reflexivity|apply lo_refl]. Qed.
  Lemma quieter_bind {T U} (m m' : logged F T) (k k' : T -> logged F U) :
    quieter m m' -> (forall x, quieter (k x) (k' x)) -> quieter (lbind m k) (lbind m' k').
  Proof.
    intros [E H] K. destruct m as [l r], m' as [l' r']. cbn in E, H. subst r'.
    destruct r as [x|e]; cbn; [|split; auto]. specialize (K x). destruct (k x), (k' x). destruct K as [K1 K2].
    split; [exact K1|]. cbn. apply lo_app; auto.
  Qed.

  (** The lines of a kind that a piece of the program writes. *)
  Definition sel {T U} (g : entry F -> list U) (m : logged F T) : list U := lines_of g (fst m).
  Lemma sel_bind {T U V} (g : entry F -> list V) (m : logged F T) (k : T -> logged F U) :
    sel g (lbind m k) = (sel g m ++ match snd m with Ok x => sel g (k x) | Err _ => [] end)%list.
  Proof.
    destruct m as [l [x|e]]; cbn; [destruct (k x); unfold sel, lines_of; cbn; apply flat_map_app|].
    unfold sel, lines_of; cbn. now rewrite app_nil_r.
  Qed.
  Lemma sel_bind0 {T U V} (g : entry F -> list V) (m : logged F T) (k : T -> logged F U) :
    sel g m = [] -> sel g (lbind m k) = match snd m with Ok x => sel g (k x) | Err _ => [] end.
  Proof. intros H. rewrite sel_bind, H. reflexivity. Qed.
  Lemma silent_bind {T U V} (g : entry F -> list V) (m : logged F T) (k : T -> logged F U) :
    sel g m = [] -> (forall x, snd m = Ok x -> sel g (k x) = []) -> sel g (lbind m k) = [].
  Proof. intros H K. rewrite sel_bind, H. destruct (snd m) eqn:E; cbn; auto. Qed.
  Lemma silent_ret {T V} (g : entry F -> list V) (r : result T) : sel g (lret r) = [].
  Proof. reflexivity. Qed.
  Lemma silent_info {V} (g : entry F -> list V) v k t : g (ToFile (Note t)) = [] -> sel g (log_info v k t) = [].
  Proof. intros H. unfold sel, log_info. destruct (k <=? v); cbn; [rewrite H|]; reflexivity. Qed.
  Lemma info_said {V} (g : entry F -> list V) v k t : k <= v -> sel g (log_info v k t) = g (ToFile (Note t)).
  Proof. intros H. unfold sel, log_info. apply Z.leb_le in H. rewrite H. cbn. apply app_nil_r. Qed.
End Generic.

Ltac lsplit := repeat match goal with
  | |- context [let '(_, _) := ?p in _] => is_var p; destruct p
  end.

(** ** The log does not disturb *)
Section Passive.
  Context {F : Type} {A : Arith F} {S : Type} {G : Rng F S} (v : Z) (e : surroundings).

  Ltac go := rewrite ?lbind_snd; cbn [snd fst lret rbind log_info log_model_time log_warning log_config].

  Lemma check_size_snd w s : snd (check_size_log (F:=F) v w s) = Ok tt.
  Proof. unfold check_size_log. destruct (_ <=? _); reflexivity. Qed.

  Section P.
  Context (P : params F).

  Lemma water_step_snd weights stage H_SL ct step st :
    snd (water_step_log v P weights stage H_SL ct step st) = water_step (S:=S) P weights stage H_SL ct step st.
  Proof.
    destruct st as [[[ps q] width] s]. unfold water_step_log, water_step. go. rewrite check_size_snd. cbn [rbind].
    go. destruct (choose_next_directions P weights ps s) as [[ps1 s1]|]; cbn [rbind]; [|reflexivity]. go.
    destruct (update_Q P q cur _) as [q1|]; cbn [rbind]; [|reflexivity].
    destruct (update_Q P q1 new _) as [q2|]; cbn [rbind]; [|reflexivity]. go.
    destruct (check_for_loops P stage H_SL step _) as [ps2|]; cbn [rbind]; [|reflexivity]. go.
    destruct (mapM (record_step P ct) ps2) as [pbs|]; cbn [rbind]; [|reflexivity].
    destruct (step <? _); [|reflexivity]. go.
    destruct (existsb snd pbs); cbn [snd rbind]; go; destruct (update_Q P q2 new _); reflexivity.
  Qed.

  Lemma water_loop_snd weights stage H_SL ct fuel : forall step st,
    snd (water_loop_log v P weights stage H_SL ct fuel step st) = water_loop (S:=S) P weights stage H_SL ct fuel step st.
  Proof.
    induction fuel as [|fuel IH]; intros step st; [reflexivity|].
    cbn [water_loop_log water_loop]. destruct (any_active _); [|reflexivity].
    go. rewrite water_step_snd. destruct (water_step _ _ _ _ _ _ _); cbn [rbind]; [apply IH|reflexivity].
  Qed.

  Lemma run_water_snd (st : state F S) : snd (run_water_iteration_log v P st) = run_water_iteration P st.
  Proof.
    unfold run_water_iteration_log, run_water_iteration. go. go. go.
    destruct (get_start_indices _ _ _ _) as [[starts s]|]; cbn [rbind]; [|reflexivity].
    destruct (s_width st <=? 0); [reflexivity|]. go. go.
    destruct (get_water_weight_array _ _ _ _ _ _ _) as [w|]; cbn [rbind]; [|reflexivity]. apply water_loop_snd.
  Qed.

  Lemma water_iteration_snd it (st : state F S) : snd (water_iteration_log v P it st) = water_iteration P it st.
  Proof.
    unfold water_iteration_log, water_iteration. go. rewrite run_water_snd.
    destruct (run_water_iteration P st) as [[[[ps [[qxn qyn] qwn]] width] s]|]; cbn [rbind]; [|reflexivity].
    go. go. destruct (compute_free_surface _ _ _); cbn [rbind]; [|reflexivity]. do 5 go. reflexivity.
  Qed.

  Lemma water_iterations_snd n : forall it (st : state F S),
    snd (water_iterations_log v P n it st) = water_iterations P n it st.
  Proof.
    induction n as [|n IH]; intros it st; [reflexivity|]. cbn [water_iterations_log water_iterations]. go.
    rewrite water_iteration_snd. destruct (water_iteration _ _ _); cbn [rbind]; [apply IH|reflexivity].
  Qed.

  Lemma route_water_snd (st : state F S) : snd (route_water_log v P st) = route_water P st.
  Proof. unfold route_water_log, route_water. go. apply water_iterations_snd. Qed.

  Lemma route_all_snd g (st : state F S) : snd (route_all_parcels_log v P g st) = route_all_parcels P g st.
  Proof.
    unfold route_all_parcels_log, route_all_parcels, route_all_parcels_res. go. go.
    destruct (get_start_indices _ _ _ _) as [[starts s]|]; cbn [rbind]; [|reflexivity]. go. go.
    destruct (route_parcels _ _ _ _ _ _) as [[[b Vs] s']|]; cbn [rbind]; [|reflexivity]. go. reflexivity.
  Qed.

  Lemma route_sediment_snd (st : state F S) : snd (route_sediment_log v P st) = route_sediment P st.
  Proof.
    unfold route_sediment_log, route_sediment. do 4 go. rewrite route_all_snd.
    destruct (route_all_parcels _ _ _); cbn [rbind]; [|reflexivity]. go. go. apply route_all_snd.
  Qed.

  Lemma solve_snd (st : state F S) : snd (solve_log v P st) = solve_water_and_sediment_timestep P st.
  Proof.
    unfold solve_log, solve_water_and_sediment_timestep. go. rewrite route_water_snd.
    destruct (route_water _ _); cbn [rbind]; [apply route_sediment_snd|reflexivity].
  Qed.

  Lemma subsidence_snd (st : state F S) : snd (apply_subsidence_log v P st) = Ok (apply_subsidence P st).
  Proof. unfold apply_subsidence_log. go. destruct (_ && _); reflexivity. Qed.

  Lemma finalize_snd (st : state F S) : snd (finalize_timestep_log v P st) = Ok (finalize_timestep P st).
  Proof. reflexivity. Qed.

  Lemma save_grids_snd names : snd (save_grids_log (F:=F) v names) = Ok tt.
  Proof. induction names as [|k l IH]; [reflexivity|]. cbn [save_grids_log]. go. exact IH. Qed.

  Lemma save_snd i : snd (save_log (F:=F) v e i) = Ok tt.
  Proof.
    unfold save_log. go.
    destruct (e_figures e); go; (destruct (e_any_grids e); go; [rewrite save_grids_snd|]; cbn [rbind]; go;
      destruct (e_meta e); go; destruct (e_saving e); reflexivity).
  Qed.

  Lemma output_data_snd (st : state F S) : snd (output_data_log v e P st) = Ok (output_data P st).
  Proof. unfold output_data_log. go. destruct (ext_geb _ _); [rewrite save_snd|]; reflexivity. Qed.

  Lemma output_checkpoint_snd (st : state F S) : snd (output_checkpoint_log v P st) = Ok (output_checkpoint P st).
  Proof.
    unfold output_checkpoint_log. go. destruct (_ && _); [|reflexivity]. go. destruct (negb _); reflexivity.
  Qed.

  Lemma write_output_snd (st : state F S) : snd (write_output_log v e P st) = Ok (write_output P st).
  Proof.
    unfold write_output_log, write_output. go. rewrite output_data_snd. cbn [rbind].
    destruct (output_data P st) as [st1 o1]. go. rewrite output_checkpoint_snd. cbn [rbind].
    destruct (output_checkpoint P st1) as [st2 o2]. reflexivity.
  Qed.

  Lemma update_snd (st : state F S) : snd (update_log v e P st) = update P st.
  Proof.
    unfold update_log, update. go. rewrite solve_snd.
    destruct (solve_water_and_sediment_timestep P st); cbn [rbind]; [|reflexivity].
    go. rewrite subsidence_snd. cbn [rbind]. go. rewrite finalize_snd. cbn [rbind]. go. apply write_output_snd.
  Qed.

  Lemma updates_snd n : forall (st : state F S), snd (updates_log v e P n st) = updates P n st.
  Proof.
    induction n as [|n IH]; intros st; [reflexivity|]. cbn [updates_log updates]. go. rewrite update_snd.
    destruct (update P st) as [[st1 o1]|]; cbn [rbind]; [|reflexivity]. go. rewrite IH.
    destruct (updates P n st1) as [[st2 o2]|]; reflexivity.
  Qed.
  End P.

  Lemma model_update_snd (m : model (F:=F) S) : snd (model_update_log v e m) = model_update m.
  Proof.
    unfold model_update_log, model_update. destruct (m_finalized m); [reflexivity|]. go. rewrite update_snd.
    destruct (update _ _) as [[st o]|]; reflexivity.
  Qed.
  Lemma model_finalize_snd open (m : model (F:=F) S) : snd (model_finalize_log v open m) = model_finalize m.
  Proof. unfold model_finalize_log, model_finalize. go. destruct (m_finalized m); [reflexivity|]. go. destruct open; reflexivity. Qed.

  Context {N : Type} {GN : NpRng N}.

  Lemma config_snd (c : dict (value F)) : snd (config_log v c) = Ok tt.
  Proof. induction c as [|kv c IH]; [reflexivity|]. cbn [config_log]. go. exact IH. Qed.

  Lemma construct_snd resuming c (inp : inputs F) (nb : S) (np : N) :
    snd (construct_log v e resuming c inp nb np) = construct inp nb np.
  Proof.
    unfold construct_log, construct, process_input_log, init_logger_log. repeat (go).
    destruct (process_input_to_model inp) as [inp1|]; cbn [rbind]; [|reflexivity].
    go. match goal with |- context [snd (if resuming then ?x else ?y)] => set (b := if resuming then x else y);
      assert (E : snd b = Ok tt) by (subst b; destruct resuming; [reflexivity|apply config_snd]); rewrite E; clear E; clearbody b end.
    cbn [rbind]. go. unfold determine_random_seed_log.
    destruct (determine_random_seed (G:=G) inp1 np) as [[inp2 s] np2]. repeat go.
    destruct (create_boundary_conditions _ _) as [P|]; cbn [rbind]; [|reflexivity]. repeat go.
    destruct (create_domain _ _ _) as [[P1 st]|]; cbn [rbind]; [|reflexivity]. repeat go. reflexivity.
  Qed.

  Lemma init_output_snd ex : (e_saving e && ex && negb (e_clobber e) = false) ->
    snd (init_output_file_log (F:=F) v e ex) = Ok tt.
  Proof.
    intros H. unfold init_output_file_log. go. destruct (e_saving e); [|reflexivity]. go.
    cbn in H. rewrite H. go. destruct ex; reflexivity.
  Qed.
  Lemma complete_snd (st : state F S) : snd (complete_log v st) = Ok tt.
  Proof. reflexivity. Qed.

  Lemma new_model_snd c inp (nb : S) (np : N) : inputs_of c = Ok inp ->
    e_saving e && e_exists e && negb (e_clobber e) = false ->
    snd (new_model_log v e false c nb np) = new_model inp nb np.
  Proof.
    intros I H. unfold new_model_log, new_model. go. rewrite I. cbn [rbind]. go. rewrite construct_snd.
    destruct (construct inp nb np) as [[m np']|]; cbn [rbind]; [|reflexivity]. go. rewrite init_output_snd by exact H.
    cbn [rbind]. go. rewrite write_output_snd. cbn [rbind]. destruct (write_output (m_P m) (m_st m)) as [st o].
    go. rewrite complete_snd. reflexivity.
  Qed.

  Lemma resume_snd c inp ck (nb : S) (np : N) defer : inputs_of c = Ok inp ->
    snd (resume_log v e defer c ck nb np) = resume inp ck (e_saving e && negb defer && negb (e_exists e)) nb np.
  Proof.
    intros I. unfold resume_log, resume. go. rewrite I. cbn [rbind]. go. rewrite construct_snd.
    destruct (construct inp nb np) as [[m np']|]; cbn [rbind]; [|reflexivity]. go.
    unfold load_checkpoint_log. repeat go.
    destruct (load_checkpoint _ _ _) as [st|]; cbn [rbind]; [|reflexivity]. repeat go.
    match goal with |- context [snd (if e_saving e && negb defer then ?x else ?y)] =>
      set (b := if e_saving e && negb defer then x else y); assert (E : snd b = Ok tt) end.
    { subst b. destruct (e_saving e && negb defer) eqn:ES; [|reflexivity]. destruct (negb (e_exists e)); [|reflexivity].
      go. apply init_output_snd. destruct (e_saving e); reflexivity. }
    rewrite E. cbn [rbind]. go. rewrite complete_snd. reflexivity.
  Qed.

  Lemma run_model_snd c inp (nb : S) (np : N) n : inputs_of c = Ok inp ->
    e_saving e && e_exists e && negb (e_clobber e) = false ->
    snd (run_model_log v e c nb np n) = run_model inp nb np n.
  Proof.
    intros I H. unfold run_model_log, run_model. go. rewrite (new_model_snd c inp nb np I H).
    destruct (new_model inp nb np) as [[[m o] np']|]; cbn [rbind]; [|reflexivity]. go. rewrite updates_snd.
    destruct (updates _ _ _) as [[st o']|]; reflexivity.
  Qed.
End Passive.

(** ** More verbose models only add lines *)
Section Quieter.
  Context {F : Type} {A : Arith F} {S : Type} {G : Rng F S} (v v' : Z) (e : surroundings).
  Context (Hv : forall k, 0 <= k <= 2 -> k <= v -> k <= v').

  Lemma q_info k t : 0 <= k <= 2 -> quieter (F:=F) (log_info v k t) (log_info v' k t).
  Proof.
    intros Hk. split; [reflexivity|]. unfold log_info; cbn.
    destruct (Z.leb_spec k v) as [K|K]; [|apply lo_none]. apply Hv, Z.leb_le in K; auto. rewrite K. apply lo_refl.
  Qed.
  Lemma q_config kv : quieter (F:=F) (log_config v kv) (log_config v' kv).
  Proof.
    split; [reflexivity|]. unfold log_config; cbn.
    destruct (Z.leb_spec 0 v) as [K|K]; [|apply lo_none]. apply Hv, Z.leb_le in K; [|lia]. rewrite K. apply lo_refl.
  Qed.
  Lemma q_time (st : state F S) : quieter (log_model_time v st) (log_model_time v' st).
  Proof.
    split; [reflexivity|]. unfold log_model_time; cbn. apply lo_keep.
    destruct (Z.ltb_spec 0 v) as [K|K]; [|apply lo_none].
    assert (K' : 1 <= v') by (apply Hv; lia). replace (0 <? v') with true by (symmetry; apply Z.ltb_lt; lia). apply lo_refl.
  Qed.
  Lemma q_if {T} (b : bool) (m m' n n' : logged F T) :
    quieter m m' -> quieter n n' -> quieter (if b then m else n) (if b then m' else n').
  Proof. destruct b; auto. Qed.

  Ltac qq := repeat first
    [ apply quieter_refl
    | apply q_info; lia
    | apply q_time
    | apply quieter_bind; [|intros ?]
    | apply q_if
    | progress lsplit ].

  Section P.
  Context (P : params F).
  Lemma q_water_step w stage H ct step st :
    quieter (water_step_log (S:=S) v P w stage H ct step st) (water_step_log v' P w stage H ct step st).
  Proof. destruct st as [[[ps q] width] s]. unfold water_step_log, check_size_log. qq. Qed.
  Lemma q_water_loop w stage H ct fuel : forall step st,
    quieter (water_loop_log (S:=S) v P w stage H ct fuel step st) (water_loop_log v' P w stage H ct fuel step st).
  Proof.
    induction fuel as [|fuel IH]; intros step st; cbn [water_loop_log]; [qq|]. apply q_if; [|qq].
    apply quieter_bind; [apply q_water_step|intros x; apply IH].
  Qed.
  Lemma q_run_water (st : state F S) : quieter (run_water_iteration_log v P st) (run_water_iteration_log v' P st).
  Proof. unfold run_water_iteration_log. qq. apply q_water_loop. Qed.
  Lemma q_water_iteration it (st : state F S) : quieter (water_iteration_log v P it st) (water_iteration_log v' P it st).
  Proof.
    unfold water_iteration_log. apply quieter_bind; [apply q_run_water|intros [[[ps [[a b] c]] width] s]]. qq.
  Qed.
  Lemma q_water_iterations n : forall it (st : state F S),
    quieter (water_iterations_log v P n it st) (water_iterations_log v' P n it st).
  Proof.
    induction n as [|n IH]; intros it st; cbn [water_iterations_log]; [qq|].
    apply quieter_bind; [apply q_water_iteration|intros x; apply IH].
  Qed.
  Lemma q_route_all g (st : state F S) : quieter (route_all_parcels_log v P g st) (route_all_parcels_log v' P g st).
  Proof. unfold route_all_parcels_log. qq. Qed.
  Lemma q_solve (st : state F S) : quieter (solve_log v P st) (solve_log v' P st).
  Proof.
    unfold solve_log, route_water_log, route_sediment_log. qq; try apply q_water_iterations; apply q_route_all.
  Qed.
  Lemma q_save_grids names : quieter (F:=F) (save_grids_log v names) (save_grids_log v' names).
  Proof. induction names; cbn [save_grids_log]; qq; auto. Qed.
  Lemma q_write (st : state F S) : quieter (write_output_log v e P st) (write_output_log v' e P st).
  Proof.
    unfold write_output_log, output_data_log, output_checkpoint_log, save_log. qq; apply q_save_grids.
  Qed.
  Lemma q_update (st : state F S) : quieter (update_log v e P st) (update_log v' e P st).
  Proof.
    unfold update_log, apply_subsidence_log, finalize_timestep_log. apply quieter_bind; [apply q_solve|intros x].
    apply quieter_bind; [qq|intros y]. apply quieter_bind; [qq|intros z]. apply quieter_bind; [qq|intros _]. apply q_write.
  Qed.
  Lemma q_updates n : forall (st : state F S), quieter (updates_log v e P n st) (updates_log v' e P n st).
  Proof.
    induction n as [|n IH]; intros st; cbn [updates_log]; [qq|].
    apply quieter_bind; [apply q_update|intros [st1 o1]]. apply quieter_bind; [apply IH|intros [st2 o2]]. qq.
  Qed.
  End P.

  Lemma q_model_update (m : model (F:=F) S) : quieter (model_update_log v e m) (model_update_log v' e m).
  Proof.
    unfold model_update_log. apply q_if; [qq|]. apply quieter_bind; [apply q_update|intros [st o]]. qq.
  Qed.
  Lemma q_finalize open (m : model (F:=F) S) : quieter (model_finalize_log v open m) (model_finalize_log v' open m).
  Proof. unfold model_finalize_log. qq. Qed.

  Context {N : Type} {GN : NpRng N}.
  Lemma q_config_log (c : dict (value F)) : quieter (config_log v c) (config_log v' c).
  Proof. induction c as [|kv c IH]; cbn [config_log]; [qq|]. apply quieter_bind; [apply q_config|auto]. Qed.
  Lemma q_construct resuming c inp (nb : S) (np : N) :
    quieter (construct_log v e resuming c inp nb np) (construct_log v' e resuming c inp nb np).
  Proof.
    unfold construct_log, init_logger_log, process_input_log, determine_random_seed_log.
    qq; try apply q_config_log. destruct (determine_random_seed x0 np) as [[i s] n]. qq.
  Qed.
  Lemma q_init_output ex : quieter (F:=F) (init_output_file_log v e ex) (init_output_file_log v' e ex).
  Proof. unfold init_output_file_log. qq. Qed.
  Lemma q_new_model defer c (nb : S) (np : N) :
    quieter (new_model_log v e defer c nb np) (new_model_log v' e defer c nb np).
  Proof.
    unfold new_model_log, complete_log. apply quieter_bind; [qq|intros inp].
    apply quieter_bind; [apply q_construct|intros [m np1]]. apply q_if; [qq|].
    apply quieter_bind; [apply q_init_output|intros _]. apply quieter_bind; [apply q_write|intros [st o]]. qq.
  Qed.
  Lemma q_resume defer c ck (nb : S) (np : N) :
    quieter (resume_log v e defer c ck nb np) (resume_log v' e defer c ck nb np).
  Proof.
    unfold resume_log, load_checkpoint_log, complete_log. apply quieter_bind; [qq|intros inp].
    apply quieter_bind; [apply q_construct|intros [m np1]]. qq.
  Qed.
  Lemma q_run_model c (nb : S) (np : N) n :
    quieter (run_model_log v e c nb np n) (run_model_log v' e c nb np n).
  Proof.
    unfold run_model_log. apply quieter_bind; [apply q_new_model|intros [[m o] np']].
    apply quieter_bind; [apply q_updates|intros [st o']]. qq.
  Qed.
End Quieter.

(** ** Lines of a kind *)

(** The messages of the routines and of the end of a time step. *)
Definition details : list string :=
  ["Increasing size of self.free_surf_walk_inds"; "Updating flux fields after single parcel step";
   "Checking stepped parcels against boundary location"; "Initializing water iteration";
   "Beginning stepping of water parcels"; "Computing water weight array";
   "Computing free surface from water parcels"; "Smoothing and finalizing free surface";
   "Computing flooding correction"; "Finalizing stepping of water parcels";
   "Updating discharge fields after parcel stepping"; "Updating flow velocity fields after parcel stepping";
   "Beginning water iteration"; "Determining sand parcel start indicies"; "Determining mud parcel start indicies";
   "Supplying model state to SandRouter for iteration"; "Supplying model state to MudRouter for iteration";
   "Updating DeltaModel based on SandRouter change"; "Updating DeltaModel based on MudRouter change";
   "Beginning sediment iteration"; "Beginning sand parcel routing"; "Beginning topographic diffusion";
   "Beginning mud parcel routing"; "Finalizing timestep"; "Computing bed sand fraction"].
(** The messages of saving a record, other than the first and the grids. *)
Definition save_details : list string :=
  ["Saving figures"; "Saving grids"; "Saving metadata"; "Syncing data to output file"].
Definition one_of (l : list string) (t : string) : bool := existsb (String.eqb t) l.
Lemma one_of_In l t : one_of l t = true -> In t l.
Proof. unfold one_of. intros H. apply existsb_exists in H as (x & Hx & E). apply String.eqb_eq in E. now subst. Qed.
Definition saving_text (i : Z) : string := "Saving data to output file: " ++ zfill 5 (pystr (Z.to_N i)).

Section Select.
  Context {F : Type} {A : Arith F} {S : Type} {G : Rng F S} {U : Type} (g : entry F -> list U).
  Context (v : Z) (e : surroundings) (P : params F).

  Section Details.
  Context (Hg : forall t, one_of details t = true -> g (ToFile (Note t)) = []).

  Ltac ss := repeat first
    [ apply silent_ret
    | apply silent_info, Hg; reflexivity
    | apply silent_bind; [|intros ? ?]
    | progress lsplit
    | match goal with |- sel _ (if ?b then _ else _) = _ => destruct b end ].

  Lemma sel_water_step w stage H ct step st : sel g (water_step_log (S:=S) v P w stage H ct step st) = [].
  Proof. destruct st as [[[ps q] width] s]. unfold water_step_log, check_size_log. ss. Qed.
  Lemma sel_water_loop w stage H ct fuel : forall step st, sel g (water_loop_log (S:=S) v P w stage H ct fuel step st) = [].
  Proof.
    induction fuel as [|fuel IH]; intros step st; cbn [water_loop_log]; [reflexivity|].
    destruct (any_active _); [|reflexivity]. apply silent_bind; [apply sel_water_step|intros; apply IH].
  Qed.
  Lemma sel_run_water (st : state F S) : sel g (run_water_iteration_log v P st) = [].
  Proof. unfold run_water_iteration_log. ss. apply sel_water_loop. Qed.
  Lemma sel_water_iteration it (st : state F S) : sel g (water_iteration_log v P it st) = [].
  Proof.
    unfold water_iteration_log. apply silent_bind; [apply sel_run_water|intros [[[ps [[a b] c]] width] s] _]. ss.
  Qed.
  Lemma sel_water_iterations n : forall it (st : state F S), sel g (water_iterations_log v P n it st) = [].
  Proof.
    induction n as [|n IH]; intros it st; cbn [water_iterations_log]; [reflexivity|].
    apply silent_bind; [apply sel_water_iteration|intros; apply IH].
  Qed.
  Lemma sel_route_all gr (st : state F S) : sel g (route_all_parcels_log v P gr st) = [].
  Proof. unfold route_all_parcels_log. destruct gr; ss. Qed.
  Lemma sel_solve (st : state F S) : sel g (solve_log v P st) = [].
  Proof.
    unfold solve_log, route_water_log, route_sediment_log. ss; try apply sel_water_iterations; apply sel_route_all.
  Qed.
  Lemma sel_finalize (st : state F S) : sel g (finalize_timestep_log v P st) = [].
  Proof. unfold finalize_timestep_log. ss. Qed.
  End Details.

  (** A message written under a condition. *)
  Definition said (c : bool) (k : Z) (t : string) : list U := if c && (k <=? v) then g (ToFile (Note t)) else [].

  Lemma sel_info k t : sel g (log_info v k t) = said true k t.
  Proof. unfold sel, log_info, said. cbn [andb]. destruct (k <=? v); cbn; [apply app_nil_r|reflexivity]. Qed.

  Definition subsides (st : state F S) : bool := p_toggle_subsidence P && fleb (p_start_subsidence P) (s_time st).
  Lemma sel_subsidence (st : state F S) : sel g (apply_subsidence_log v P st) = said (subsides st) 1 "Applying subsidence".
  Proof.
    unfold apply_subsidence_log, subsides. rewrite sel_bind.
    destruct (_ && _) eqn:E; cbn [snd log_info lret]; rewrite app_nil_r; [apply sel_info|reflexivity].
  Qed.

  Section Saving.
  Context (Hs : forall t, one_of save_details t = true -> g (ToFile (Note t)) = []).
  Context (Hk : forall k, g (ToFile (Note ("saving " ++ k ++ " grid"))) = []).

  Lemma sel_save_grids names : sel g (save_grids_log v names) = [].
  Proof.
    induction names as [|k l IH]; cbn [save_grids_log]; [reflexivity|]. apply silent_bind; [|intros; exact IH].
    apply silent_info, Hk.
  Qed.
  Lemma sel_save i : sel g (save_log v e i) = said true 1 (saving_text i).
  Proof.
    unfold save_log. rewrite sel_bind, sel_info. cbn [snd log_info].
    match goal with |- (_ ++ ?y)%list = _ => assert (E : y = []); [|rewrite E; apply app_nil_r] end.
    apply silent_bind; [destruct (e_figures e); [apply silent_info, Hs|]; reflexivity|intros ? _].
    apply silent_bind; [destruct (e_any_grids e); [|reflexivity]; apply silent_bind;
      [apply silent_info, Hs; reflexivity|intros; apply sel_save_grids]|intros ? _].
    apply silent_bind; [destruct (e_meta e); [apply silent_info, Hs|]; reflexivity|intros ? _].
    destruct (e_saving e); [apply silent_info, Hs|]; reflexivity.
  Qed.

  (** Whether a record and a checkpoint are written. *)
  Definition saves (st : state F S) : bool := ext_geb (s_save_time_since_data st) (p_save_dt P).
  Definition checkpoints (st : state F S) : bool :=
    ext_geb (s_save_time_since_checkpoint st) (p_checkpoint_dt P) && p_save_checkpoint P.

  Lemma sel_write (st : state F S) : sel g (write_output_log v e P st) =
    (said (saves st) 1 (saving_text (s_save_iter st)) ++
     said (checkpoints st) 1 "Saving checkpoint" ++
     (if checkpoints st && negb (feqb (p_checkpoint_dt P) (p_save_dt P)) then g (ToFile (Caution interval_warning)) else []))%list.
  Proof.
    unfold write_output_log. rewrite sel_bind, output_data_snd. f_equal.
    - unfold output_data_log, saves. rewrite sel_bind.
      destruct (ext_geb _ _); [rewrite sel_save, save_snd|]; cbn [snd lret]; rewrite app_nil_r; reflexivity.
    - assert (E : checkpoints st = checkpoints (fst (output_data P st))).
      { unfold checkpoints, output_data. destruct (ext_geb (s_save_time_since_data st) _); reflexivity. }
      rewrite E. clear E. destruct (output_data P st) as [st1 o1]. cbn [fst].
      rewrite sel_bind, output_checkpoint_snd. destruct (output_checkpoint P st1) as [st2 o2]. cbn [snd lret].
      rewrite app_nil_r. unfold output_checkpoint_log, checkpoints. rewrite sel_bind.
      destruct (_ && _); [|reflexivity]. rewrite sel_bind, sel_info. cbn [snd log_info lret andb].
      destruct (negb _); cbn [snd lret log_warning lbind log_info]; unfold said; cbn [andb]; rewrite ?app_nil_r; f_equal.
      + unfold sel, log_warning. cbn. apply app_nil_r.
      + reflexivity.
  Qed.
  End Saving.

  Lemma sel_update (st : state F S) :
    (forall t, one_of details t = true -> g (ToFile (Note t)) = []) ->
    sel g (update_log v e P st) =
    match solve_water_and_sediment_timestep P st with
    | Err _ => []
    | Ok st1 =>
        let st2 := advance_clock P (finalize_timestep P (apply_subsidence P st1)) in
        (said (subsides st1) 1 "Applying subsidence" ++
         sel g (log_model_time v st2) ++ sel g (write_output_log v e P st2))%list
    end.
  Proof.
    intros Hg. unfold update_log. rewrite sel_bind, solve_snd, sel_solve by exact Hg.
    destruct (solve_water_and_sediment_timestep P st) as [st1|]; [|reflexivity]. cbn [app].
    rewrite sel_bind, subsidence_snd, sel_subsidence. f_equal. rewrite sel_bind, finalize_snd, sel_finalize by exact Hg.
    cbn [app]. rewrite sel_bind. f_equal.
  Qed.
End Select.

(** ** What the lines say *)
Lemma prefix_app s t : String.prefix s (s ++ t) = true.
Proof.
  induction s as [|c s IH]; cbn; [destruct t; reflexivity|]. destruct (Ascii.ascii_dec c c) as [_|K]; [exact IH|contradiction].
Qed.
Lemma if_same {T} (b : bool) (x : T) : (if b then x else x) = x.
Proof. destruct b; reflexivity. Qed.
Ltac one_ofs := let t := fresh in let H := fresh in intros t H; apply one_of_In in H; cbn [details save_details In] in H;
  repeat (destruct H as [H|H]; [subst t; reflexivity|]); contradiction.

Section Facts.
  Context {F : Type} {A : Arith F} {S : Type} {G : Rng F S} (v : Z) (e : surroundings).

  Lemma write_keeps (P : params F) (st st' : state F S) o : write_output P st = (st', o) ->
    s_time st' = s_time st /\ s_time_iter st' = s_time_iter st /\
    record_indices o = (if saves P st then [s_save_iter st] else []) /\
    List.length (checkpoints_in o) = (if checkpoints P st then 1 else 0)%nat.
  Proof.
    unfold write_output, output_data, output_checkpoint, saves, checkpoints.
    destruct (ext_geb (s_save_time_since_data st) _); cbn [s_save_time_since_checkpoint set_save_time_since_data set_save_iter];
      destruct (ext_geb (s_save_time_since_checkpoint st) _ && _) eqn:E;
      cbn -[ext_geb]; try (unfold set_save_time_since_data, set_save_iter; cbn -[ext_geb]); rewrite ?E; intros H; injection H as <- <-; repeat split.
  Qed.

  Section P.
  Context (P : params F).

  Lemma update_split (st st' : state F S) o : update P st = Ok (st', o) ->
    exists st1, solve_water_and_sediment_timestep P st = Ok st1 /\ s_time st1 = s_time st /\
      write_output P (advance_clock P (finalize_timestep P (apply_subsidence P st1))) = (st', o).
  Proof.
    unfold update. intros E. apply rbind_Ok in E as (st1 & E1 & E). injection E as E. exists st1. repeat split; auto.
    unfold solve_water_and_sediment_timestep in E1. apply rbind_Ok in E1 as (st0 & E0 & E1).
    apply route_water_frame in E0. apply route_sediment_frame in E1.
    unfold water_frame in E0. unfold sed_frame in E1. cbn in E0. intuition congruence.
  Qed.

  Lemma update_failed (st : state F S) x : update P st = Err x -> solve_water_and_sediment_timestep P st = Err x.
  Proof. unfold update. destruct (solve_water_and_sediment_timestep P st); cbn [rbind]; intros E; [discriminate|injection E as ->; reflexivity]. Qed.

  Lemma time_line (st st' : state F S) o : update P st = Ok (st', o) ->
    sel time_in_file (update_log v e P st) = [(s_time st', s_time_iter st')] /\
    sel on_screen (update_log v e P st) = (if 0 <? v then [TimeIs (s_time st') (s_time_iter st')] else []).
  Proof.
    intros E. apply update_split in E as (st1 & E1 & _ & E2). destruct (write_keeps _ _ _ _ E2) as (T1 & T2 & _).
    rewrite !sel_update, E1 by reflexivity. cbv zeta. rewrite T1, T2.
    set (st2 := advance_clock P (finalize_timestep P (apply_subsidence P st1))).
    rewrite !sel_write by reflexivity. unfold said. cbn [time_in_file on_screen].
    rewrite !(if_same _ []). split.
    - unfold sel, log_model_time, lines_of. cbn. destruct (0 <? v); reflexivity.
    - unfold sel, log_model_time, lines_of. cbn. destruct (0 <? v); reflexivity.
  Qed.

  Lemma time_failed (st : state F S) x : update P st = Err x ->
    sel time_in_file (update_log v e P st) = [] /\ sel on_screen (update_log v e P st) = [].
  Proof. intros E. apply update_failed in E. rewrite !sel_update, E by reflexivity. split; reflexivity. Qed.

  Lemma saving_lines (st st' : state F S) o : 1 <= v -> update P st = Ok (st', o) ->
    sel (note_in_file "Saving data to output file: ") (update_log v e P st) = map saving_text (record_indices o) /\
    List.length (sel (exactly_in_file "Saving checkpoint") (update_log v e P st)) = List.length (checkpoints_in o) /\
    List.length (sel (exactly_in_file "Applying subsidence") (update_log v e P st)) =
      (if p_toggle_subsidence P && fleb (p_start_subsidence P) (s_time st) then 1 else 0)%nat.
  Proof.
    intros Hv E. apply update_split in E as (st1 & E1 & T & E2). destruct (write_keeps _ _ _ _ E2) as (_ & _ & R & C).
    rewrite R, C, <- T. clear R C E2.
    rewrite !sel_update, E1 by one_ofs. cbv zeta.
    set (st2 := advance_clock P (finalize_timestep P (apply_subsidence P st1))).
    rewrite !sel_write by first [one_ofs|reflexivity].
    unfold said. apply Z.leb_le in Hv. rewrite Hv, !andb_true_r. unfold subsides.
    assert (Q : forall U (g : entry F -> list U), (forall t n, g (ToFile (TimeIs t n)) = []) -> (forall m, g (ToScreen m) = []) ->
              sel g (log_model_time v st2) = []).
    { intros U g H1 H2. unfold sel, log_model_time, lines_of. cbn [fst flat_map]. rewrite H1.
      destruct (0 <? v); cbn; rewrite ?H2; reflexivity. }
    rewrite !Q by reflexivity. clear Q.
    repeat split.
    - cbn [note_in_file]. unfold saving_text at 1. rewrite prefix_app.
      destruct (p_toggle_subsidence P && _), (saves P st2), (checkpoints P st2); cbn; rewrite ?if_same; reflexivity.
    - destruct (p_toggle_subsidence P && _), (saves P st2), (checkpoints P st2); cbn; rewrite ?if_same; reflexivity.
    - destruct (p_toggle_subsidence P && _), (saves P st2), (checkpoints P st2); cbn; rewrite ?if_same; reflexivity.
  Qed.

  Lemma warning_lines (st st' : state F S) o : update P st = Ok (st', o) ->
    sel warning_in_file (update_log v e P st) =
      (if negb (feqb (p_checkpoint_dt P) (p_save_dt P)) then map (fun _ => interval_warning) (checkpoints_in o) else []).
  Proof.
    intros E. apply update_split in E as (st1 & E1 & T & E2). destruct (write_keeps _ _ _ _ E2) as (_ & _ & _ & C).
    rewrite sel_update, E1 by reflexivity. cbv zeta.
    set (st2 := advance_clock P (finalize_timestep P (apply_subsidence P st1))) in *.
    rewrite sel_write by reflexivity. unfold said. cbn [warning_in_file]. rewrite !if_same.
    replace (sel warning_in_file (log_model_time v st2)) with (@nil string)
      by (unfold sel, log_model_time, lines_of; cbn; destruct (0 <? v); reflexivity).
    cbn [app]. destruct (checkpoints P st2); destruct (checkpoints_in o) as [|x [|y l]]; try discriminate C;
      destruct (negb _); reflexivity.
  Qed.

  Lemma failed_lines U (g : entry F -> list U) (st : state F S) x :
    (forall t, one_of details t = true -> g (ToFile (Note t)) = []) ->
    update P st = Err x -> sel g (update_log v e P st) = [].
  Proof. intros H E. apply update_failed in E. rewrite sel_update, E by exact H. reflexivity. Qed.

  (** One line for each water iteration and one for the sediment. *)
  Let init := exactly_in_file (F:=F) "Initializing water iteration".

  Ltac ss := repeat first
    [ apply silent_ret
    | apply silent_info; reflexivity
    | apply silent_bind; [|intros ? ?]
    | progress lsplit
    | match goal with |- sel _ (if ?b then _ else _) = _ => destruct b end ].

  Lemma init_loop w stage H ct fuel : forall step st, sel init (water_loop_log (S:=S) v P w stage H ct fuel step st) = [].
  Proof.
    induction fuel as [|fuel IH]; intros step st; cbn [water_loop_log]; [reflexivity|].
    destruct (any_active _); [|reflexivity]. apply silent_bind; [|intros; apply IH].
    destruct st as [[[ps q] width] s]. unfold water_step_log, check_size_log. ss.
  Qed.
  Lemma init_iteration it (st st' : state F S) : 2 <= v -> water_iteration P it st = Ok st' ->
    List.length (sel init (water_iteration_log v P it st)) = 1%nat.
  Proof.
    intros Hv E. unfold water_iteration_log. rewrite sel_bind.
    match goal with |- List.length (?a ++ ?b) = _ => assert (Ha : List.length a = 1%nat); [|assert (Hb : b = [])] end.
    - unfold run_water_iteration_log. rewrite sel_bind, info_said by lia. cbn [init exactly_in_file String.eqb Ascii.eqb Bool.eqb].
      cbn [snd log_info app List.length]. f_equal.
      match goal with |- List.length ?l = _ => enough (K : l = []) by (rewrite K; reflexivity) end.
      ss. apply init_loop.
    - destruct (snd (run_water_iteration_log v P st)) as [[[[ps [[a b] c]] width] s]|]; [|reflexivity]. ss.
    - rewrite Hb, app_nil_r. exact Ha.
  Qed.
  Lemma init_iterations n : forall it (st st' : state F S), 2 <= v -> water_iterations P n it st = Ok st' ->
    List.length (sel init (water_iterations_log v P n it st)) = n.
  Proof.
    induction n as [|n IH]; intros it st st' Hv E; [reflexivity|]. cbn [water_iterations_log water_iterations] in *.
    apply rbind_Ok in E as (st1 & E1 & E). rewrite sel_bind, water_iteration_snd, E1, app_length.
    rewrite (init_iteration it st st1 Hv E1), (IH _ _ _ Hv E). reflexivity.
  Qed.
  Lemma init_update (st st' : state F S) o : 2 <= v -> update P st = Ok (st', o) ->
    List.length (sel init (update_log v e P st)) = (Z.to_nat (p_itermax P) + 1)%nat.
  Proof.
    intros Hv E. apply update_split in E as (st1 & E1 & _ & _).
    unfold update_log. rewrite sel_bind, app_length. rewrite solve_snd, E1.
    match goal with |- (?a + ?b)%nat = _ => assert (Hb : b = 0%nat) end.
    { match goal with |- List.length ?l = _ => enough (K : l = []) by (rewrite K; reflexivity) end.
      apply silent_bind; [rewrite sel_subsidence; unfold said; cbn; apply if_same|intros ? _].
      apply silent_bind; [unfold finalize_timestep_log; ss|intros ? _].
      apply silent_bind; [unfold sel, log_model_time, lines_of; cbn; destruct (0 <? v); reflexivity|intros ? _].
      rewrite sel_write by first [one_ofs|reflexivity]. unfold said. cbn. rewrite !if_same. reflexivity. }
    rewrite Hb, Nat.add_0_r. clear Hb.
    unfold solve_water_and_sediment_timestep in E1. apply rbind_Ok in E1 as (st0 & E0 & E1).
    unfold solve_log. rewrite sel_bind, route_water_snd, E0, app_length.
    unfold route_water_log. rewrite sel_bind. cbn [snd log_info].
    rewrite silent_info by reflexivity. cbn [app]. unfold route_water in E0. rewrite (init_iterations _ _ _ _ Hv E0).
    f_equal. unfold route_sediment_log. rewrite sel_bind, silent_info by reflexivity. cbn [app snd log_info].
    rewrite sel_bind, info_said by lia. cbn [init exactly_in_file String.eqb Ascii.eqb Bool.eqb snd log_info app List.length].
    f_equal. match goal with |- List.length ?l = _ => enough (K : l = []) by (rewrite K; reflexivity) end.
    unfold route_all_parcels_log. ss.
  Qed.
  End P.
End Facts.

(** ** Construction *)
Section Construction.
  Context {F : Type} {A : Arith F} {S : Type} {G : Rng F S} {N : Type} {GN : NpRng N} (v : Z) (e : surroundings).

  Definition seed_text (z : Z) : string := "Random seed is: " ++ pystrZ z ++ " ".

  (** The lines of construction of a kind that the fixed messages are not. *)
  Lemma sel_construct {U} (g : entry F -> list U) resuming c (inp : inputs F) (nb : S) (np np' : N) m :
    (forall t, String.prefix "Random seed is: " t = false -> g (ToFile (Note t)) = []) ->
    construct inp nb np = Ok (m, np') ->
    exists z, i_seed (m_in m) = Some z /\
    sel g (construct_log v e resuming c inp nb np) =
      ((if resuming then [] else sel g (config_log v c)) ++ said g v true 0 (seed_text z))%list.
  Proof.
    intros Hg E. unfold construct in E. apply rbind_Ok in E as (inp1 & E1 & E).
    unfold construct_log.
    rewrite sel_bind. replace (sel g (init_logger_log v e)) with (@nil U)
      by (unfold init_logger_log; repeat (symmetry; apply silent_bind; [apply silent_info, Hg; reflexivity|intros _ _; symmetry]); symmetry; apply silent_info, Hg; reflexivity).
    replace (snd (init_logger_log v e)) with (@Ok unit tt) by reflexivity. cbn [app].
    rewrite sel_bind.
    assert (Ep : snd (process_input_log v e resuming c inp) = Ok inp1).
    { unfold process_input_log. rewrite ?lbind_snd. cbn [snd log_info rbind]. rewrite ?lbind_snd. cbn [snd log_info rbind].
      rewrite ?lbind_snd. cbn [snd lret]. rewrite E1. cbn [rbind]. rewrite ?lbind_snd.
      destruct resuming; [reflexivity|]. rewrite config_snd. reflexivity. }
    rewrite Ep.
    assert (Es : sel g (process_input_log v e resuming c inp) = if resuming then [] else sel g (config_log v c)).
    { unfold process_input_log. rewrite sel_bind, silent_info by (apply Hg; reflexivity). cbn [app snd log_info].
      rewrite sel_bind, silent_info by (apply Hg; reflexivity). cbn [app snd log_info].
      rewrite sel_bind, silent_ret. cbn [app snd lret]. rewrite E1. rewrite sel_bind.
      destruct resuming; [reflexivity|]. rewrite config_snd. cbn. apply app_nil_r. }
    rewrite Es. destruct (seed_of inp1 np) as (z & K). rewrite K in E.
    exists z. apply rbind_Ok in E as (P & E2 & E). apply rbind_Ok in E as ([P' st] & E3 & E). injection E as <- <-.
    split; [reflexivity|]. f_equal. rewrite sel_bind. unfold determine_random_seed_log. rewrite K.
    rewrite lbind_snd. cbn [snd log_info rbind lret]. rewrite sel_bind, sel_info. cbn [snd log_info]. rewrite silent_ret, app_nil_r.
    match goal with |- (_ ++ ?y)%list = _ => assert (Q : y = []); [|rewrite Q; apply app_nil_r] end.
    repeat (first [apply silent_bind; [first [apply silent_info, Hg; reflexivity|apply silent_ret]|intros ? ?]
                  |progress lsplit|apply silent_ret]).
  Qed.

  Section Kind.
  Context {U : Type} (g : entry F -> list U).
  Context (Hg : forall t, String.prefix "Random seed is: " t = false -> g (ToFile (Note t)) = []).
  Context (Hc : forall t, g (ToFile (Caution t)) = []).

  Lemma sel_init_output ex : sel g (init_output_file_log v e ex) = [].
  Proof.
    unfold init_output_file_log. apply silent_bind; [apply silent_info, Hg; reflexivity|intros _ _].
    destruct (e_saving e); [|reflexivity]. apply silent_bind; [apply silent_info, Hg; reflexivity|intros _ _].
    destruct (_ && _); [reflexivity|].
    apply silent_bind; [destruct ex; [unfold sel, log_warning, lines_of; cbn; rewrite Hc|]; reflexivity|intros _ _].
    apply silent_info, Hg; reflexivity.
  Qed.
  Lemma sel_write_seed (P : params F) (st : state F S) : sel g (write_output_log v e P st) = [].
  Proof.
    rewrite sel_write.
    - unfold said. rewrite Hc, (Hg "Saving checkpoint") by reflexivity. unfold saving_text. rewrite Hg by reflexivity.
      rewrite !if_same. reflexivity.
    - intros t H. apply Hg. apply one_of_In in H. cbn in H.
      repeat (destruct H as [H|H]; [subst t; reflexivity|]). contradiction.
    - intros k. apply Hg. reflexivity.
  Qed.
  Lemma sel_complete (st : state F S) : sel g (complete_log v st) = sel g (log_model_time v st).
  Proof. unfold complete_log. rewrite sel_bind, silent_info by (apply Hg; reflexivity). reflexivity. Qed.

  Lemma sel_new c inp (nb : S) (np np' : N) m o :
    inputs_of c = Ok inp -> e_saving e && e_exists e && negb (e_clobber e) = false ->
    new_model inp nb np = Ok (m, o, np') ->
    exists z, i_seed (m_in m) = Some z /\
    sel g (new_model_log v e false c nb np) =
      (sel g (config_log v c) ++ said g v true 0 (seed_text z) ++ sel g (log_model_time v (m_st m)))%list.
  Proof.
    intros I H E. unfold new_model in E. apply rbind_Ok in E as ([m0 np0] & E1 & E).
    destruct (write_output (m_P m0) (m_st m0)) as [st o0] eqn:Ew. injection E as <- <- <-. cbn [m_in m_st].
    unfold new_model_log. rewrite sel_bind, silent_ret. cbn [snd lret app]. rewrite I.
    destruct (sel_construct g false c inp nb np np0 m0 Hg E1) as (z & Ez & Es). exists z. split; [exact Ez|].
    rewrite sel_bind, construct_snd, E1, Es, <- app_assoc. do 2 f_equal. 
    rewrite sel_bind, sel_init_output, (init_output_snd v e _ H). cbn [app].
    rewrite sel_bind, sel_write_seed, write_output_snd, Ew. cbn [app].
    rewrite sel_bind, sel_complete. replace (snd (complete_log v st)) with (@Ok unit tt) by reflexivity.
    rewrite silent_ret. apply app_nil_r.
  Qed.

  Lemma sel_resume c inp ck defer (nb : S) (np np' : N) m :
    inputs_of c = Ok inp ->
    resume inp ck (e_saving e && negb defer && negb (e_exists e)) nb np = Ok (m, np') ->
    exists z, i_seed (m_in m) = Some z /\
    sel g (resume_log v e defer c ck nb np) =
      (said g v true 0 (seed_text z) ++ sel g (log_model_time v (m_st m)))%list.
  Proof.
    intros I E. pose proof (resume_snd v e c inp ck nb np defer I) as RS. unfold resume in E.
    apply rbind_Ok in E as ([m0 np0] & E1 & E). apply rbind_Ok in E as (st & E2 & E). injection E as <- <-. cbn [m_in m_st].
    unfold resume_log in *. rewrite sel_bind, silent_ret. cbn [snd lret app]. rewrite I.
    destruct (sel_construct g true c inp nb np np0 m0 Hg E1) as (z & Ez & Es). exists z. split; [exact Ez|].
    rewrite sel_bind, construct_snd, E1, Es. cbn [app]. f_equal.
    rewrite sel_bind.
    assert (El : sel g (load_checkpoint_log v e defer ck (m_st m0)) = []).
    { unfold load_checkpoint_log.
      repeat (apply silent_bind; [first [apply silent_info, Hg; reflexivity|apply silent_ret]|intros ? _]).
      apply silent_bind; [|intros ? _].
      - destruct (e_saving e && negb defer); [|reflexivity]. destruct (negb (e_exists e)).
        + apply silent_bind; [unfold sel, log_warning, lines_of; cbn; rewrite Hc; reflexivity|intros _ _]. apply sel_init_output.
        + apply silent_bind; [|intros _ _]; apply silent_info, Hg; reflexivity.
      - apply silent_bind; [apply silent_info, Hg; reflexivity|intros _ _]. apply silent_ret. }
    rewrite El. cbn [app].
    assert (Sn : snd (load_checkpoint_log v e defer ck (m_st m0)) = Ok st).
    { rewrite !lbind_snd in RS. cbn [snd lret] in RS. rewrite I in RS. cbn [rbind] in RS. rewrite lbind_snd, construct_snd in RS.
      unfold resume in RS. rewrite E1 in RS. cbn [rbind] in RS. rewrite lbind_snd, E2 in RS. cbn [rbind] in RS.
      destruct (snd (load_checkpoint_log v e defer ck (m_st m0))) as [st'|]; [|discriminate RS]. cbn in RS. congruence. }
    rewrite Sn. rewrite sel_bind, sel_complete. replace (snd (complete_log v st)) with (@Ok unit tt) by reflexivity.
    rewrite silent_ret. apply app_nil_r.
  Qed.
  End Kind.

  Lemma config_lines c : 0 <= v -> sel config_in_file (config_log (F:=F) v c) = c.
  Proof.
    intros Hv. apply Z.leb_le in Hv. induction c as [|[k x] c IH]; [reflexivity|].
    cbn [config_log]. rewrite sel_bind. cbn [snd log_config]. rewrite IH.
    unfold sel, log_config, lines_of. cbn [fst snd]. rewrite Hv. reflexivity.
  Qed.
  Lemma config_silent {U} (g : entry F -> list U) c : (forall k x, g (ToFile (ConfigIs k x)) = []) -> sel g (config_log v c) = [].
  Proof.
    intros H. induction c as [|kx c IH]; [reflexivity|]. cbn [config_log].
    apply silent_bind; [|intros _ _; exact IH]. unfold sel, log_config, lines_of. destruct (0 <=? v); cbn; rewrite ?H; reflexivity.
  Qed.

  Lemma times_updates (P : params F) n : forall (st st' : state F S) o, updates P n st = Ok (st', o) ->
    sel time_in_file (updates_log v e P n st) =
    map (fun k => (Nat.iter k (fun t => fadd t (p_dt P)) (s_time st), s_time_iter st + Z.of_nat k)) (seq 1 n).
  Proof.
    induction n as [|n IH]; intros st st' o E; [reflexivity|]. cbn [updates updates_log] in *.
    apply rbind_Ok in E as ([st1 o1] & E1 & E). apply rbind_Ok in E as ([st2 o2] & E2 & E).
    rewrite sel_bind, update_snd, E1. destruct (time_line v e P st st1 o1 E1) as [T _]. rewrite T.
    rewrite sel_bind, updates_snd, E2, silent_ret, app_nil_r, (IH _ _ _ E2).
    apply update_frame in E1 as (_ & _ & _ & _ & _ & _ & T1 & T2). rewrite T1, T2.
    cbn [seq map app]. f_equal.
    rewrite <- (seq_shift n 1), map_map. apply map_ext. intros k. f_equal; [|lia].
    induction k as [|k IHk]; [reflexivity|]. change (Nat.iter (Datatypes.S k) ?f ?x) with (f (Nat.iter k f x)). cbv beta.
    rewrite IHk. reflexivity.
  Qed.
End Construction.

(** ** Text of numbers and log files *)
Lemma pystr_inj n m : pystr n = pystr m -> n = m.
Proof. intros H. apply (zfill_inj 0). unfold zfill. cbn. exact H. Qed.
Lemma pystr_no_minus n t : pystr n <> "-" ++ t.
Proof.
  intros H. pose proof (uint_digits (N.to_uint n)) as D. fold (pystr n) in D. rewrite H in D. discriminate D.
Qed.
Lemma pystrZ_inj z z' : pystrZ z = pystrZ z' -> z = z'.
Proof.
  unfold pystrZ. destruct (Z.ltb_spec z 0), (Z.ltb_spec z' 0); intros E.
  - apply append_inj_l, pystr_inj in E. lia.
  - symmetry in E. apply pystr_no_minus in E. contradiction.
  - apply pystr_no_minus in E. contradiction.
  - apply pystr_inj in E. lia.
Qed.
Lemma seed_text_inj z z' : seed_text z = seed_text z' -> z = z'.
Proof. intros H. unfold seed_text in H. apply append_inj_l, append_inj_r, pystrZ_inj in H. exact H. Qed.

Lemma pyg_small n : (n < 1000000)%N -> pyg n = pystr n.
Proof. intros H. unfold pyg. apply N.ltb_lt in H. rewrite H. reflexivity. Qed.

Lemma emits_lines {F} name (l : list (message F)) : forall w,
  handlers (emits name l w) = handlers w /\
  lines (emits name l w) name = (lines w name ++ flat_map (fun m => repeat m (handlers w name)) l)%list /\
  forall other, other <> name -> lines (emits name l w) other = lines w other.
Proof.
  induction l as [|m l IH]; intros w; cbn [emits flat_map].
  - rewrite app_nil_r. auto.
  - destruct (IH (emit name m w)) as (H1 & H2 & H3). split; [rewrite H1; reflexivity|]. split.
    + rewrite H2. unfold emit at 1. cbn [lines handlers]. rewrite String.eqb_refl, <- app_assoc. reflexivity.
    + intros other Ho. rewrite H3 by exact Ho. cbn. apply String.eqb_neq in Ho. rewrite Ho. reflexivity.
Qed.
