(** From a configuration of several jobs to the output of each (C80). *)
From Coq Require Import ZArith List Bool String Reals.
From Verif Require Import Base Dict Config Params State Water Iter Inputs Init InitSpec Expand Jobs JobsSpec.
Import ListNotations.
Local Open Scope R_scope.

Section RunAllSpec.
  Context {S : Type} {G : Rng R S} {N : Type} {GN : NpRng N}.

  (** A configuration a user can run: it gives a model that runs, a seed and a
      duration. *)
  Definition complete_config (j : dict (value R)) : Prop :=
    (exists inp z, configure (A:=RX) [] (Mapping j) [] = Ok inp /\ runnable inp /\ i_seed inp = Some z) /\
    forall dt, exists D, asks j dt D.

  (** A finished job did what its configuration says: its model is a new model
      of the configuration [f] (in whatever state the generators were before),
      after the least number of updates that reach the duration that [c] asks
      for, and its output is that of the updates. *)
  Definition did_with (f c : dict (value R)) (r : ran R S) : Prop :=
    completed r /\ exists inp, configure (A:=RX) [] (Mapping f) [] = Ok inp /\
    forall (nb : S) (np : N), exists m o np' D,
      new_model (A:=RX) inp nb np = Ok (m, o, np') /\
      asks c (p_dt (m_P m)) D /\ least_reaching 0 (p_dt (m_P m)) D (r_updates r) /\
      m_in (r_model r) = m_in m /\ m_P (r_model r) = m_P m /\
      updates (A:=RX) (m_P m) (r_updates r) (m_st m) = Ok (m_st (r_model r), r_output r).
  Definition did (j : dict (value R)) : ran R S -> Prop := did_with j j.
End RunAllSpec.
