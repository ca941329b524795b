(** Proofs about the text of configurations. *)
From Coq Require Import ZArith NArith List Bool String Ascii Lia Decimal DecimalString DecimalN DecimalFacts.
From Verif Require Import Base Dict Text Config Expand Regex YamlText YamlSpec.
Import ListNotations.
Local Open Scope string_scope.

(** ** Characters *)
Lemma all_app : forall p s t, all_chars p (s ++ t) = all_chars p s && all_chars p t.
Proof. induction s as [|c s IH]; intros t; cbn; [reflexivity|]. rewrite IH. apply andb_assoc. Qed.
Lemma all_impl : forall (p q : ascii -> bool) s, (forall c, p c = true -> q c = true) ->
  all_chars p s = true -> all_chars q s = true.
Proof.
  induction s as [|c s IH]; intros I H; cbn in *; [reflexivity|]. apply andb_prop in H as [H1 H2].
  rewrite (I _ H1), IH; auto.
Qed.
Lemma all_has : forall p s c, all_chars p s = true -> has c s = true -> p c = true.
Proof.
  induction s as [|d s IH]; intros c H1 H2; cbn in *; [discriminate|]. apply andb_prop in H1 as [H H1].
  apply orb_prop in H2 as [H2|H2]; [apply Ascii.eqb_eq in H2; subst; exact H|auto].
Qed.

(** Facts about all characters, by cases. *)
Definition all_ascii (p : ascii -> bool) : bool :=
  forallb (fun n => p (ascii_of_nat n)) (seq 0 256).
Lemma all_ascii_ok : forall p, all_ascii p = true -> forall c, p c = true.
Proof.
  intros p H c. unfold all_ascii in H. rewrite forallb_forall in H.
  specialize (H (nat_of_ascii c)). rewrite ascii_nat_embedding in H. apply H.
  apply in_seq. split; [lia|]. cbn [plus]. apply nat_ascii_bounded.
Qed.
Lemma char_fact : forall p q : ascii -> bool, all_ascii (fun c => implb (p c) (q c)) = true ->
  forall c, p c = true -> q c = true.
Proof. intros p q H c Hp. pose proof (all_ascii_ok _ H c) as K. cbn in K. rewrite Hp in K. exact K. Qed.

(** All the characters of an expression satisfy [p]. *)
Fixpoint only (p : ascii -> bool) (r : re) : bool :=
  match r with
  | Void | Eps => true
  | Cls cs => all_chars p cs
  | Cat a b | Alt a b => only p a && only p b
  | Star a => only p a
  end.
Lemma only_ok : forall p r s, only p r = true -> Matches r s -> all_chars p s = true.
Proof.
  intros p r s H M. induction M; cbn in *; try reflexivity.
  - rewrite (all_has p cs c H H0). reflexivity.
  - apply andb_prop in H as [H1 H2]. rewrite all_app, IHM1, IHM2; auto.
  - apply andb_prop in H as [H1 H2]. auto.
  - apply andb_prop in H as [H1 H2]. auto.
  - rewrite all_app, IHM1, IHM2; auto.
Qed.

(** ** Resolution *)
Lemma first_match_none : forall l s, (forall r t, In (r, t) l -> ~ Matches r s) -> first_match l s = None.
Proof.
  induction l as [|[r t] l IH]; intros s H; cbn; [reflexivity|].
  destruct (matches r s) eqn:E.
  - apply matches_ok in E. destruct (H r t); [left; reflexivity|exact E].
  - apply IH. intros r' t' Hin. apply (H r' t'). right; exact Hin.
Qed.
Lemma not_special : forall s, ~ special s -> first_match resolvers s = None.
Proof. intros s H. apply first_match_none. intros r t Hin M. apply H. exists r, t. auto. Qed.
Lemma matches_not : forall r s, ~ Matches r s -> matches r s = false.
Proof. intros r s H. destruct (matches r s) eqn:E; [|reflexivity]. apply matches_ok in E. contradiction. Qed.

(** A character that no resolver knows makes a text a string. *)
Definition foreign (c : ascii) : bool := forallb (fun rt => avoids c (fst rt)) resolvers.
Lemma foreign_not_special : forall c s, foreign c = true -> has c s = true -> ~ special s.
Proof.
  intros c s Hf Hs (r & t & Hin & M). unfold foreign in Hf. rewrite forallb_forall in Hf.
  specialize (Hf _ Hin). cbn in Hf. rewrite (avoids_ok c r s Hf M) in Hs. discriminate.
Qed.

(** ** Integers *)
Lemma to_uint_head : forall n, N.to_uint n = Decimal.D0 Decimal.Nil \/
  (N.to_uint n <> Decimal.Nil /\ forall v, N.to_uint n <> Decimal.D0 v).
Proof.
  intros n. pose proof (DecimalN.Unsigned.of_to n) as E1.
  pose proof (DecimalN.Unsigned.to_of (N.to_uint n)) as E2. rewrite E1 in E2.
  destruct (Decimal.nzhead (N.to_uint n)) eqn:E;
    [left; rewrite E2; apply unorm_0; exact E|exfalso; exact (nzhead_nonzero (N.to_uint n) u E)|..];
    right; rewrite E2, unorm_nzhead by (rewrite E; discriminate); rewrite E; split; intros; discriminate.
Qed.

(** The digits of a number, as characters and as a value. *)
Fixpoint uval (acc : Z) (u : Decimal.uint) : Z :=
  match u with
  | Decimal.Nil => acc
  | Decimal.D0 u => uval (acc * 10) u | Decimal.D1 u => uval (acc * 10 + 1) u
  | Decimal.D2 u => uval (acc * 10 + 2) u | Decimal.D3 u => uval (acc * 10 + 3) u
  | Decimal.D4 u => uval (acc * 10 + 4) u | Decimal.D5 u => uval (acc * 10 + 5) u
  | Decimal.D6 u => uval (acc * 10 + 6) u | Decimal.D7 u => uval (acc * 10 + 7) u
  | Decimal.D8 u => uval (acc * 10 + 8) u | Decimal.D9 u => uval (acc * 10 + 9) u
  end%Z.
Lemma read_uint : forall u acc, read_digits 10 acc (NilEmpty.string_of_uint u) = uval acc u.
Proof.
  induction u; intros acc; cbn [NilEmpty.string_of_uint read_digits uval]; [reflexivity|..]; rewrite IHu;
    cbv [digit_value nat_of_ascii N_of_ascii]; cbn; rewrite ?Z.add_0_r; reflexivity.
Qed.
Lemma uval_acc : forall u p, Z.pos (Pos.of_uint_acc u p) = uval (Z.pos p) u.
Proof. induction u; intros p; cbn [Pos.of_uint_acc uval]; [reflexivity|..]; rewrite IHu; f_equal; lia. Qed.
Lemma uval_N : forall u, Z.of_N (N.of_uint u) = uval 0 u.
Proof.
  induction u; cbn [uval]; [reflexivity| exact IHu|..]; unfold N.of_uint; cbn [Pos.of_uint Z.of_N];
    rewrite uval_acc; reflexivity.
Qed.
Lemma read_pystr : forall n, read_digits 10 0 (pystr n) = Z.of_N n.
Proof. intros n. unfold pystr. rewrite read_uint, <- uval_N, DecimalN.Unsigned.of_to. reflexivity. Qed.

Lemma digits_clear : forall c s, all_chars is_digit s = true -> is_digit c = false -> has c s = false.
Proof.
  intros c s H Hc. destruct (has c s) eqn:E; [|reflexivity]. rewrite (all_has _ _ _ H E) in Hc. discriminate.
Qed.
Lemma no_underscores_id : forall s, has "_" s = false -> no_underscores s = s.
Proof.
  induction s as [|c s IH]; cbn [has no_underscores]; intros H; [reflexivity|].
  apply orb_false_elim in H as [H1 H2]. rewrite Ascii.eqb_sym in H1. rewrite H1, IH by exact H2. reflexivity.
Qed.

(** str(n) as the resolver sees it. *)
Lemma star_digits : forall s r, all_chars is_digit s = true -> (forall c, is_digit c = true -> Matches r (String c "")) ->
  Matches (Star r) s.
Proof.
  induction s as [|c s IH]; intros r H Hr; [constructor|]. cbn in H. apply andb_prop in H as [H1 H2].
  change (String c s) with (String c "" ++ s). constructor; auto.
Qed.
Lemma d09_digit : forall c, is_digit c = true -> Matches d09 (String c "").
Proof. intros c H. constructor. revert c H. apply char_fact. vm_compute. reflexivity. Qed.
Lemma d09__digit : forall c, is_digit c = true -> Matches d09_ (String c "").
Proof. intros c H. constructor. revert c H. apply char_fact. vm_compute. reflexivity. Qed.

Definition magnitude_re : re := Alt (Word "0") (Cat (Cls "123456789") (Star d09_)).
Lemma pystr_cases : forall n, pystr n = "0" /\ n = 0%N \/
  exists c s, pystr n = String c s /\ has c "123456789" = true /\ all_chars is_digit s = true.
Proof.
  intros n. unfold pystr. destruct (to_uint_head n) as [E|[E1 E2]].
  - left. rewrite E. split; [reflexivity|]. rewrite <- (DecimalN.Unsigned.of_to n), E. reflexivity.
  - right. destruct (N.to_uint n) as [|u|u|u|u|u|u|u|u|u|u] eqn:E; [congruence|destruct (E2 u eq_refl)|..];
      cbn [NilEmpty.string_of_uint]; eexists _, _; (split; [reflexivity|]); (split; [reflexivity|apply uint_digits]).
Qed.
Lemma pystr_match : forall n, Matches magnitude_re (pystr n).
Proof.
  intros n. destruct (pystr_cases n) as [[-> _]|(c & s & -> & Hc & Hs)]; [apply MAltL, word_match|].
  apply MAltR. change (String c s) with (String c "" ++ s). constructor; [constructor; exact Hc|].
  apply star_digits; [exact Hs|exact d09__digit].
Qed.
Lemma pystr_digits : forall n, all_chars is_digit (pystr n) = true.
Proof. intros n. apply uint_digits. Qed.

Lemma magnitude_pystr : forall n, magnitude (pystr n) = Ok (Z.of_N n).
Proof.
  intros n. pose proof (read_pystr n) as Hr. pose proof (pystr_digits n) as Hd.
  destruct (pystr_cases n) as [[-> ->]|(c & s & E & Hc & Hs)]; [reflexivity|].
  rewrite E in *. rewrite <- Hr.
  assert (Hcol : has ":" (String c s) = false) by (apply digits_clear; [exact Hd|reflexivity]).
  cbn [has orb] in Hc. rewrite !orb_true_iff in Hc.
  assert (K : magnitude (String c s) = Ok (if has ":" (String c s) then read_sixties 0 0 (String c s) else read_digits 10 0 (String c s))).
  { repeat destruct Hc as [Hc|Hc]; try discriminate; apply Ascii.eqb_eq in Hc; subst c; reflexivity. }
  rewrite K, Hcol. reflexivity.
Qed.

Lemma pyint_cases : forall z, exists (b : bool) n, pyint z = (if b then "-" else "") ++ pystr n /\ z = (if b then - Z.of_N n else Z.of_N n)%Z.
Proof.
  intros [|p|p]; [exists false, 0%N|exists false, (Npos p)|exists true, (Npos p)]; split; reflexivity.
Qed.

Definition signed_digit (c : ascii) : bool := is_digit c || Ascii.eqb c "-".
Lemma pyint_chars : forall z, all_chars signed_digit (pyint z) = true.
Proof.
  intros z. destruct (pyint_cases z) as (b & n & -> & _). rewrite all_app. apply andb_true_intro. split; [destruct b; reflexivity|].
  eapply all_impl; [|apply pystr_digits]. intros c H. unfold signed_digit. rewrite H. reflexivity.
Qed.
Lemma first_digit : forall s, s <> "" -> all_chars is_digit s = true -> exists c, is_digit c = true /\ has c s = true.
Proof.
  intros [|c s] H1 H2; [congruence|]. exists c. cbn in *. apply andb_prop in H2 as [H2 _]. rewrite Ascii.eqb_refl. auto.
Qed.
Lemma pystr_nonempty : forall n, pystr n <> "".
Proof. intros n. destruct (pystr_cases n) as [[-> _]|(c & s & -> & _)]; discriminate. Qed.
Lemma pyint_digit : forall z, exists c, is_digit c = true /\ has c (pyint z) = true.
Proof.
  intros z. destruct (pyint_cases z) as (b & n & -> & _).
  destruct (first_digit (pystr n) (pystr_nonempty n) (pystr_digits n)) as (c & H1 & H2).
  exists c. split; [exact H1|]. rewrite has_app, H2. apply orb_true_r.
Qed.

Lemma clear : forall p c s, all_chars p s = true -> p c = false -> has c s = false.
Proof. intros p c s H Hc. destruct (has c s) eqn:E; [|reflexivity]. rewrite (all_has _ _ _ H E) in Hc. discriminate. Qed.

(** Texts with a digit are no words. *)
Lemma digit_not_word : forall r s c, only (fun c => negb (is_digit c)) r = true -> is_digit c = true -> has c s = true -> ~ Matches r s.
Proof.
  intros r s c H Hd Hc M. pose proof (only_ok _ r s H M) as K. pose proof (all_has _ _ _ K Hc) as E.
  cbn in E. rewrite Hd in E. discriminate.
Qed.

Lemma sign_match : forall b, Matches sign (if b : bool then "-" else "").
Proof. intros [|]; [apply MAltL; constructor; reflexivity|apply MAltR; constructor]. Qed.

Lemma pyint_resolves : forall z, first_match resolvers (pyint z) = Some TagInt.
Proof.
  intros z. destruct (pyint_digit z) as (c & Hd & Hc). cbn [resolvers first_match].
  rewrite (matches_not bool_re) by (eapply digit_not_word; [reflexivity|exact Hd|exact Hc]).
  rewrite (matches_not float_re).
  - assert (M : Matches int_re (pyint z)).
    { destruct (pyint_cases z) as (b & n & -> & _). cbn [int_re OneOf]. apply MAltR, MAltR, MAltL.
      constructor; [apply sign_match|apply pystr_match]. }
    apply matches_ok in M. rewrite M. reflexivity.
  - intros M. pose proof (needs_ok "." float_re _ eq_refl M) as K.
    rewrite (clear _ _ _ (pyint_chars z)) in K; [discriminate|reflexivity].
Qed.

Lemma read_pyint : forall z, read_int (pyint z) = Ok z.
Proof.
  intros z. unfold read_int. rewrite no_underscores_id by (eapply clear; [apply pyint_chars|reflexivity]).
  destruct (pyint_cases z) as ([|] & n & -> & ->); cbn [append].
  - rewrite magnitude_pystr. reflexivity.
  - rewrite <- magnitude_pystr. destruct (pystr_cases n) as [[-> _]|(c & s & -> & Hc & _)]; [reflexivity|].
    cbn [has orb] in Hc. rewrite !orb_true_iff in Hc.
    repeat destruct Hc as [Hc|Hc]; try discriminate; apply Ascii.eqb_eq in Hc; subst c; reflexivity.
Qed.

(** ** Floats *)
Lemma digit_text_plus : forall s, digit_text s -> Matches (Plus d09) s.
Proof.
  intros [|c s] [H1 H2]; [congruence|]. cbn in H2. apply andb_prop in H2 as [H2 H3].
  change (String c s) with (String c "" ++ s). constructor; [apply d09_digit, H2|].
  apply star_digits; [exact H3|exact d09_digit].
Qed.
Lemma digit_text_digits_ : forall s, digit_text s -> Matches digits_ s.
Proof.
  intros [|c s] [H1 H2]; [congruence|]. cbn in H2. apply andb_prop in H2 as [H2 H3].
  change (String c s) with (String c "" ++ s). constructor; [apply d09_digit, H2|].
  apply star_digits; [exact H3|exact d09__digit].
Qed.
Lemma exponent_match : forall e g d, e = "e" \/ e = "E" -> g = "" \/ g = "+" \/ g = "-" -> digit_text d ->
  Matches exponent (e ++ g ++ d).
Proof.
  intros e g d He Hg Hd. constructor; [destruct He as [-> | ->]; constructor; reflexivity|].
  constructor; [|apply digit_text_plus, Hd].
  destruct Hg as [-> |[-> | ->]]; [apply MAltR; constructor|apply MAltL; constructor; reflexivity|apply MAltL; constructor; reflexivity].
Qed.

Definition float_char (c : ascii) : bool := is_digit c || has c "-+.eE".
Lemma digits_float_char : forall s, all_chars is_digit s = true -> all_chars float_char s = true.
Proof. intros s. apply all_impl. intros c H. unfold float_char. rewrite H. reflexivity. Qed.

Lemma float_decimal : forall s, float_text s -> decimal_text s.
Proof.
  intros s (sg & ip & fp & ex & E & H1 & H2 & H3 & H4 & H5). exists sg, ip, fp, ex. repeat split; auto; try apply H2.
  - destruct H3 as [H3|(d & Hd & H3)]; [left; exact H3|right; exists d; split; [apply Hd|exact H3]].
  - destruct H4 as [H4|(g & d & Hg & Hd & H4)]; [left; exact H4|right; exists "e", g, d; auto].
Qed.

Lemma decimal_text_facts : forall s, decimal_text s ->
  Matches custom_float s /\ all_chars float_char s = true /\ (exists c, is_digit c = true /\ has c s = true) /\
  (has "." s = true \/ has "e" s = true \/ has "E" s = true) /\
  exists c r, s = String c r /\ (is_digit c = true \/ (c = "-"%char /\ exists c' r', r = String c' r' /\ is_digit c' = true)).
Proof.
  intros s (sg & ip & fp & ex & -> & Hsg & Hip & Hfp & Hex & Hne).
  assert (Msg : Matches sign sg) by (destruct Hsg as [-> | ->]; [apply (sign_match false)|apply (sign_match true)]).
  split; [|split; [|split; [|split]]].
  - assert (Mex : Matches (Opt exponent) ex).
    { destruct Hex as [-> |(e & g & d & He & Hg & Hd & ->)]; [apply MAltR; constructor|apply MAltL, exponent_match; assumption]. }
    destruct Hfp as [-> |(d & Hd & ->)].
    + destruct Hex as [-> |(e & g & d & He & Hg & Hd & ->)]; [destruct Hne; auto|]. unfold custom_float. cbn [OneOf].
      apply MAltR, MAltL. constructor; [exact Msg|]. constructor; [apply digit_text_digits_, Hip|]. exact (exponent_match e g d He Hg Hd).
    + unfold custom_float. cbn [OneOf]. apply MAltL. constructor; [exact Msg|]. constructor; [apply digit_text_digits_, Hip|].
      rewrite append_assoc. constructor; [apply word_match|]. constructor; [|exact Mex].
      apply star_digits; [apply Hd|exact d09__digit].
  - rewrite !all_app. rewrite (digits_float_char ip) by apply Hip.
    assert (all_chars float_char sg = true) as -> by (destruct Hsg as [-> | ->]; reflexivity).
    assert (all_chars float_char fp = true) as ->.
    { destruct Hfp as [-> |(d & Hd & ->)]; [reflexivity|]. cbn [append all_chars]. rewrite digits_float_char by apply Hd. reflexivity. }
    destruct Hex as [-> |(e & g & d & He & Hg & Hd & ->)]; [reflexivity|]. rewrite !all_app, (digits_float_char d) by apply Hd.
    destruct He as [-> | ->], Hg as [-> |[-> | ->]]; reflexivity.
  - destruct (first_digit ip (proj1 Hip) (proj2 Hip)) as (c & H1 & H2). exists c. split; [exact H1|].
    rewrite !has_app, H2. cbn. apply orb_true_r.
  - destruct Hfp as [-> |(d & Hd & ->)].
    + destruct Hex as [-> |(e & g & d & He & Hg & Hd & ->)]; [destruct Hne; auto|]. right.
      destruct He as [-> | ->]; [left|right]; rewrite !has_app; cbn; rewrite !orb_true_r; reflexivity.
    + left. rewrite !has_app. cbn. rewrite !orb_true_r. reflexivity.
  - destruct ip as [|c ip]; [destruct Hip as [H _]; congruence|]. destruct Hip as [_ Hip]. cbn in Hip. apply andb_prop in Hip as [Hc _].
    destruct Hsg as [-> | ->]; cbn [append]; eexists _, _; (split; [reflexivity|]); [left; exact Hc|right; split; [reflexivity|]].
    eexists _, _. split; [reflexivity|exact Hc].
Qed.

Lemma float_resolves : forall s, decimal_text s -> first_match resolvers s = Some TagFloat.
Proof.
  intros s H. destruct (decimal_text_facts s H) as (M & Hch & (c & Hd & Hc) & Hpe & _).
  assert (Nx : forall d, float_char d = false -> has d s = false) by (intros d Hd'; eapply clear; eassumption).
  cbn [resolvers first_match].
  rewrite (matches_not bool_re) by (eapply digit_not_word; [reflexivity|exact Hd|exact Hc]).
  destruct (matches float_re s); [reflexivity|].
  assert (Avoid : forall r, avoids "." r = true -> avoids "e" r = true -> avoids "E" r = true -> ~ Matches r s).
  { intros r A1 A2 A3 Mr. destruct Hpe as [K|[K|K]].
    - rewrite (avoids_ok _ _ _ A1 Mr) in K. discriminate.
    - rewrite (avoids_ok _ _ _ A2 Mr) in K. discriminate.
    - rewrite (avoids_ok _ _ _ A3 Mr) in K. discriminate. }
  assert (Need : forall d r, float_char d = false -> needs d r = true -> ~ Matches r s).
  { intros d r Hd' Hn Mr. pose proof (needs_ok _ _ _ Hn Mr) as K. rewrite (Nx d Hd') in K. discriminate. }
  rewrite (matches_not int_re).
  2:{ unfold int_re. cbn [OneOf]. intros Mr.
      repeat (apply alt_inv in Mr as [Mr|Mr]); revert Mr;
        first [apply Avoid; reflexivity|apply (Need "x"%char); reflexivity]. }
  rewrite (matches_not merge_re) by (apply Avoid; reflexivity).
  rewrite (matches_not null_re) by (eapply digit_not_word; [reflexivity|exact Hd|exact Hc]).
  rewrite (matches_not timestamp_re).
  2:{ unfold timestamp_re. cbn [OneOf]. intros Mr. apply alt_inv in Mr as [Mr|Mr]; revert Mr;
        [apply Avoid; reflexivity|apply (Need ":"%char); reflexivity]. }
  rewrite (matches_not value_re) by (apply Avoid; reflexivity).
  apply matches_ok in M. rewrite M. reflexivity.
Qed.

(** ** Scanning *)
Fixpoint clean (sp : bool) (s : string) : bool :=
  match s with
  | "" => negb sp
  | String c s' =>
      if Ascii.eqb c " " then clean true s'
      else negb (Ascii.eqb c "#" && sp) && negb (Ascii.eqb c ":" && blank_next s') && clean false s'
  end.
Lemma scan_clean : forall s sp, clean (negb (String.eqb sp "")) s = true -> scan_plain sp s = (sp ++ s, "").
Proof.
  induction s as [|c s IH]; intros sp H; cbn [scan_plain clean] in *.
  - destruct sp as [|c sp]; [reflexivity|discriminate].
  - destruct (Ascii.eqb c " ") eqn:Ec.
    + apply Ascii.eqb_eq in Ec. subst c. rewrite IH.
      * rewrite append_assoc. reflexivity.
      * destruct sp; exact H.
    + apply andb_prop in H as [H H3]. apply andb_prop in H as [H1 H2].
      apply negb_true_iff in H1. rewrite H1. apply negb_true_iff in H2. rewrite H2.
      rewrite IH by exact H3. reflexivity.
Qed.

Lemma plain_clean : forall r p sp, (sp = true -> exists q, p = q ++ " ") ->
  (forall a b, p ++ r <> a ++ ": " ++ b) -> (forall a b, p ++ r <> a ++ " #" ++ b) ->
  (forall a, p ++ r <> a ++ " " /\ p ++ r <> a ++ ":") -> clean sp r = true.
Proof.
  induction r as [|c r IH]; intros p sp Hsp H1 H2 H3; cbn [clean].
  - destruct sp; [|reflexivity]. destruct (Hsp eq_refl) as (q & ->). destruct (H3 q) as [H _].
    rewrite app_nil_s in H. congruence.
  - assert (E : p ++ String c r = (p ++ String c "") ++ r) by (rewrite append_assoc; reflexivity).
    rewrite E in *.
    destruct (Ascii.eqb c " ") eqn:Ec.
    + apply (IH (p ++ String c "")); auto. intros _. apply Ascii.eqb_eq in Ec. subst c. eauto.
    + apply andb_true_intro. split; [apply andb_true_intro; split|].
      * destruct sp; [|rewrite andb_false_r; reflexivity]. destruct (Hsp eq_refl) as (q & Hq).
        destruct (Ascii.eqb c "#") eqn:Eh; [|reflexivity]. apply Ascii.eqb_eq in Eh. subst c.
        exfalso. apply (H2 q r). rewrite Hq, !append_assoc. reflexivity.
      * destruct (Ascii.eqb c ":") eqn:Eh; [|reflexivity]. apply Ascii.eqb_eq in Eh. subst c.
        destruct r as [|d r]; cbn [blank_next andb].
        -- exfalso. destruct (H3 p) as [_ K]. apply K. rewrite app_nil_s. reflexivity.
        -- destruct (Ascii.eqb d " ") eqn:Ed; [|reflexivity]. apply Ascii.eqb_eq in Ed. subst d.
           exfalso. apply (H1 p r). rewrite append_assoc. reflexivity.
      * apply (IH (p ++ String c "")); auto. discriminate.
Qed.

(** A text free of spaces, colons and number signs. *)
Lemma free_clean : forall s, has " " s = false -> has ":" s = false -> clean false s = true.
Proof.
  induction s as [|c s IH]; intros H1 H2; cbn [clean has] in *; [reflexivity|].
  apply orb_false_elim in H1 as [H1 H1']. apply orb_false_elim in H2 as [H2 H2'].
  rewrite Ascii.eqb_sym in H1. rewrite Ascii.eqb_sym in H2. rewrite H1, H2, IH, andb_false_r by assumption. reflexivity.
Qed.

(** A text on a line that is scanned as a whole. *)
Definition token (t : string) : Prop := all_chars printable t = true /\ plain_start t = true /\ clean false t = true.

Lemma plain_token : forall s, plain_text s -> token s.
Proof.
  intros s [H1 (c & r & E & Hc & Hi) H3 H4 H5]. split; [exact H1|]. split.
  - subst s. cbn [plain_start]. rewrite Hi. destruct (Ascii.eqb c " ") eqn:Ec; [apply Ascii.eqb_eq in Ec; congruence|reflexivity].
  - apply (plain_clean s "" false); auto. discriminate.
Qed.

Definition number_char (c : ascii) : bool := is_digit c || has c "-+.eE".
Lemma number_token : forall s, all_chars number_char s = true ->
  (exists c r, s = String c r /\ (is_digit c = true \/ (c = "-"%char /\ exists c' r', r = String c' r' /\ is_digit c' = true))) ->
  token s.
Proof.
  intros s H (c & r & E & Hf). split; [|split].
  - revert H. apply all_impl. apply char_fact. vm_compute. reflexivity.
  - subst s. cbn [plain_start]. destruct Hf as [Hc|(-> & c' & r' & -> & Hc')].
    + assert (K : negb (Ascii.eqb c " ") && negb (has c indicators) = true)
        by (revert c Hc H; intros c Hc _; revert c Hc; apply char_fact; vm_compute; reflexivity).
      apply andb_prop in K as [K1 K2]. rewrite K1, K2. reflexivity.
    + cbn [blank_next]. assert (K : negb (Ascii.eqb c' " ") = true) by (revert c' Hc' H; intros c' Hc' _; revert c' Hc'; apply char_fact; vm_compute; reflexivity).
      rewrite K. reflexivity.
  - apply free_clean; eapply clear; try exact H; reflexivity.
Qed.

Section Values.
  Context {F : Type} (fstr : F -> string) (float_of : string -> F).

  Lemma word_token : forall s, all_chars letter s = true -> s <> "" -> token s.
  Proof.
    intros [|c r] H Hne; [congruence|]. split; [|split].
    - revert H. apply all_impl. apply char_fact. vm_compute. reflexivity.
    - cbn [plain_start]. cbn in H. apply andb_prop in H as [Hc _].
      assert (K : negb (Ascii.eqb c " ") && negb (has c indicators) = true)
        by (revert c Hc Hne; intros c Hc _; revert c Hc; apply char_fact; vm_compute; reflexivity).
      apply andb_prop in K as [K1 K2]. rewrite K1, K2. reflexivity.
    - apply free_clean; eapply clear; try exact H; reflexivity.
  Qed.

  Lemma value_back : forall v, readable fstr float_of v ->
    exists t, value_text fstr v = Ok t /\ token t /\ plain_value float_of t = Ok v.
  Proof.
    intros [| [|] |z|x|s|l|d] H; cbn [readable value_text] in *; try contradiction; eexists; (split; [reflexivity|]).
    - split; [apply word_token; [reflexivity|discriminate]|]. vm_compute. reflexivity.
    - split; [apply word_token; [reflexivity|discriminate]|]. vm_compute. reflexivity.
    - split; [apply word_token; [reflexivity|discriminate]|]. vm_compute. reflexivity.
    - split.
      + apply number_token.
        * generalize (pyint_chars z). apply all_impl. apply char_fact. vm_compute. reflexivity.
        * destruct (pyint_cases z) as ([|] & n & -> & _); cbn [append].
          -- eexists _, _. split; [reflexivity|]. right. split; [reflexivity|].
             pose proof (pystr_digits n) as Hd. destruct (pystr n) as [|c r] eqn:E; [destruct (pystr_nonempty n E)|].
             eexists _, _. split; [reflexivity|]. cbn in Hd. apply andb_prop in Hd as [Hd _]. exact Hd.
          -- pose proof (pystr_digits n) as Hd. destruct (pystr n) as [|c r] eqn:E; [destruct (pystr_nonempty n E)|].
             eexists _, _. split; [reflexivity|]. left. cbn in Hd. apply andb_prop in Hd as [Hd _]. exact Hd.
      + unfold plain_value. rewrite pyint_resolves, read_pyint. reflexivity.
    - destruct H as [H1 H2]. destruct (decimal_text_facts _ (float_decimal _ H1)) as (_ & Hch & _ & _ & Hs). split.
      + apply number_token; [exact Hch|exact Hs].
      + unfold plain_value. rewrite float_resolves by exact (float_decimal _ H1). rewrite H2. reflexivity.
    - destruct H as [H1 H2]. split; [apply plain_token, H1|]. unfold plain_value. rewrite not_special by exact H2. reflexivity.
  Qed.

  Lemma decimal_read : forall s, decimal_text s -> token s /\ plain_value float_of s = Ok (VFloat (float_of s)).
  Proof.
    intros s H. destruct (decimal_text_facts s H) as (_ & Hch & _ & _ & Hs). split; [apply number_token; [exact Hch|exact Hs]|].
    unfold plain_value. rewrite float_resolves by exact H. reflexivity.
  Qed.

  (** ** Lines *)
  Lemma skip_token : forall t, plain_start t = true -> skip_spaces t = t.
  Proof.
    intros [|c t] H; [discriminate|]. cbn [plain_start skip_spaces] in *. apply andb_prop in H as [H _].
    apply negb_true_iff in H. rewrite H. reflexivity.
  Qed.
  Lemma load_token : forall t v, token t -> plain_value float_of t = Ok v -> load_value float_of (" " ++ t) = Ok v.
  Proof.
    intros t v (_ & Hs & Hc) Hv. unfold load_value. change (skip_spaces (" " ++ t)) with (skip_spaces t).
    rewrite (skip_token t Hs). pose proof (scan_clean t "" Hc) as E. cbn [append] in E.
    rewrite Hs, E. cbn [at_end]. destruct (at_end t) eqn:Eh; [|exact Hv].
    destruct t as [|c t]; [discriminate|]. cbn [at_end] in Eh. apply Ascii.eqb_eq in Eh. subst c. discriminate.
  Qed.

  Definition key_char (c : ascii) : bool := letter c || is_digit c || Ascii.eqb c "_".
  Lemma scan_key : forall k r, all_chars key_char k = true -> scan_plain "" (k ++ ": " ++ r) = (k, ": " ++ r).
  Proof.
    induction k as [|c k IH]; intros r H; [reflexivity|]. cbn [all_chars] in H. apply andb_prop in H as [Hc H].
    cbn [append]. change (String c (k ++ String ":" (String " " r))) with (String c (k ++ ": " ++ r)). cbn [scan_plain].
    assert (K : negb (Ascii.eqb c " ") && negb (Ascii.eqb c "#") && negb (Ascii.eqb c ":") = true)
      by (revert c Hc; apply char_fact; vm_compute; reflexivity).
    apply andb_prop in K as [K K3]. apply andb_prop in K as [K1 K2]. apply negb_true_iff in K1, K2, K3.
    rewrite K1, K2, K3. cbn [andb]. rewrite IH by exact H. reflexivity.
  Qed.

  Lemma load_line_back : forall k t v, good_key k -> token t -> plain_value float_of t = Ok v ->
    load_line float_of (k ++ ": " ++ t) = Ok (Some (k, v)).
  Proof.
    intros k t v ((c & r & Ek & Hl) & Hk & Hns) Ht Hv.
    assert (Hp : all_chars printable (k ++ ": " ++ t) = true).
    { rewrite !all_app, (proj1 Ht). assert (all_chars printable k = true) as ->; [|reflexivity].
      revert Hk. apply all_impl. apply char_fact. vm_compute. reflexivity. }
    pose proof (scan_key k t Hk) as Hscan.
    assert (Hkv : plain_value float_of k = Ok (VStr k)) by (unfold plain_value; rewrite not_special by exact Hns; reflexivity).
    assert (Hend : at_end (k ++ ": " ++ t) = false).
    { rewrite Ek. cbn [append at_end].
      assert (K : negb (Ascii.eqb c "#") = true) by (clear - Hl; revert c Hl; apply char_fact; vm_compute; reflexivity).
      apply negb_true_iff, K. }
    unfold load_line. rewrite Hp. cbn [negb]. rewrite Hend, Hscan.
    assert (Hst : plain_start (k ++ ": " ++ t) && negb (prefix "---" (k ++ ": " ++ t)) && negb (prefix "..." (k ++ ": " ++ t)) = true).
    { rewrite Ek. cbn [append plain_start prefix].
      assert (K : negb (Ascii.eqb c " ") && negb (has c indicators) && negb (Ascii.eqb "-" c) && negb (Ascii.eqb "." c) = true)
        by (clear - Hl; revert c Hl; apply char_fact; vm_compute; reflexivity).
      apply andb_prop in K as [K K4]. apply andb_prop in K as [K K3]. apply andb_prop in K as [K1 K2]. rewrite K1, K2.
      apply negb_true_iff in K3, K4. apply Ascii.eqb_neq in K3, K4.
      destruct (ascii_dec "-" c) as [D|D]; [congruence|]. destruct (ascii_dec "." c) as [D'|D']; [congruence|]. reflexivity. }
    rewrite Hst. cbn [append]. rewrite Hkv. cbn [rbind].
    change (String " " t) with (" " ++ t). rewrite (load_token t v Ht Hv). cbn [rbind].
    reflexivity.
  Qed.

  Lemma lines_app : forall l r, all_chars printable l = true -> lines (l ++ newline ++ r) = l :: lines r.
  Proof.
    induction l as [|c l IH]; intros r H; [reflexivity|]. cbn [all_chars] in H. apply andb_prop in H as [Hc H].
    cbn [append lines]. rewrite IH by exact H.
    assert (K : negb (Ascii.eqb c "010") = true) by (revert c Hc; apply char_fact; vm_compute; reflexivity).
    apply negb_true_iff in K. rewrite K. reflexivity.
  Qed.
End Values.

(** ** Whole configurations *)
Lemma dset_fresh : forall (V : Type) k (v : V) d, ~ In k (dkeys d) -> dset k v d = (d ++ [(k, v)])%list.
Proof.
  induction d as [|[k' v'] d IH]; cbn; intros H; [reflexivity|].
  destruct (String.eqb_spec k k') as [->|N]; [destruct H; auto|]. rewrite IH by tauto. reflexivity.
Qed.
Lemma dupdate_fresh : forall (V : Type) (e d : dict V), NoDup (dkeys e) -> (forall k, In k (dkeys d) -> ~ In k (dkeys e)) ->
  dupdate d e = (d ++ e)%list.
Proof.
  induction e as [|[k v] e IH]; intros d N H; [rewrite List.app_nil_r; reflexivity|].
  unfold dupdate. cbn [fold_left fst snd]. cbn in N. inversion N as [|? ? N1 N2]; subst.
  rewrite dset_fresh by (intros K; apply (H k K); left; reflexivity).
  fold (dupdate (d ++ [(k, v)])%list e). rewrite IH; [rewrite <- List.app_assoc; reflexivity|exact N2|].
  intros k' K. unfold dkeys in K. rewrite map_app in K. apply in_app_or in K as [K|[K|[]]].
  - intros K'. apply (H k' K). right; exact K'.
  - cbn in K. subst k'. exact N1.
Qed.
Lemma dset_some : forall (V : Type) k (v : V) d, dset k v d <> [].
Proof. intros V k v [|[k' v'] d]; cbn; [discriminate|]. destruct (String.eqb k k'); discriminate. Qed.
Lemma dupdate_some : forall (V : Type) (e d : dict V), (d <> [] \/ e <> []) -> dupdate d e <> [].
Proof.
  induction e as [|[k v] e IH]; intros d H; cbn; [destruct H; [exact H|congruence]|].
  apply IH. left. apply dset_some.
Qed.
Section Files.
  Context {F : Type} (fstr : F -> string) (float_of : string -> F).
  Definition fine (kv : string * value F) : Prop := good_key (fst kv) /\ readable fstr float_of (snd kv).

  Lemma config_back : forall c, Forall fine c -> exists t, config_text fstr c = Ok t /\
    forall r d, load_lines float_of (lines (t ++ r)) d = load_lines float_of (lines r) (dupdate d c).
  Proof.
    induction c as [|[k v] c IH]; intros H; [exists ""; split; reflexivity|].
    inversion H as [|? ? [Hk Hv] Hc]; subst. cbn [fst snd] in *.
    destruct (value_back fstr float_of v Hv) as (t & Et & Ht & Hb). destruct (IH Hc) as (tc & Ec & Hl).
    exists (k ++ ": " ++ t ++ newline ++ tc). split; [cbn [config_text]; rewrite Et, Ec; reflexivity|].
    intros r d.
    assert (E : (k ++ ": " ++ t ++ newline ++ tc) ++ r = (k ++ ": " ++ t) ++ newline ++ (tc ++ r))
      by (rewrite !append_assoc; reflexivity).
    rewrite E, lines_app.
    - cbn [load_lines]. rewrite (load_line_back float_of k t v Hk Ht Hb). cbn [rbind]. rewrite Hl. reflexivity.
    - rewrite !all_app, (proj1 Ht). assert (all_chars printable k = true) as ->; [|reflexivity].
      destruct Hk as (_ & Hk & _). revert Hk. apply all_impl. apply char_fact. vm_compute. reflexivity.
  Qed.

  Lemma config_text_app : forall a b, config_text fstr (a ++ b)%list =
    (do x <- config_text fstr a; do y <- config_text fstr b; Ok (x ++ y)).
  Proof.
    induction a as [|[k v] a IH]; intros b; cbn [config_text List.app].
    - cbn [rbind]. destruct (config_text fstr b); reflexivity.
    - destruct (value_text fstr v) as [t|]; cbn [rbind]; [|reflexivity]. rewrite IH.
      destruct (config_text fstr a) as [ta|]; cbn [rbind]; [|reflexivity].
      destruct (config_text fstr b) as [tb|]; cbn [rbind]; [|reflexivity]. rewrite !append_assoc. reflexivity.
  Qed.

  Lemma file_back : forall c, Forall fine c -> exists t, config_text fstr c = Ok t /\
    load_text float_of t = Ok (match dupdate [] c with [] => EmptyFile | d => Mapping d end).
  Proof.
    intros c H. destruct (config_back c H) as (t & E & Hl). exists t. split; [exact E|].
    unfold load_text. specialize (Hl "" []). rewrite app_nil_s in Hl. rewrite Hl.
    destruct (dupdate [] c); reflexivity.
  Qed.
End Files.

(** ** Folders *)
Fixpoint pair_in (x y : ascii) (s : string) : bool :=
  match s with
  | "" => false
  | String c s' => (Ascii.eqb c x && match s' with String d _ => Ascii.eqb d y | "" => false end) || pair_in x y s'
  end.
Lemma pair_in_ok : forall x y s, pair_in x y s = true <-> exists a b, s = a ++ String x (String y b).
Proof.
  intros x y. induction s as [|c s IH]; cbn [pair_in].
  - split; [discriminate|]. intros ([|] & b & E); discriminate.
  - rewrite orb_true_iff, IH. split.
    + intros [H|(a & b & ->)]; [|exists (String c a), b; reflexivity].
      destruct s as [|d s]; [rewrite andb_false_r in H; discriminate|].
      apply andb_prop in H as [H1 H2]. apply Ascii.eqb_eq in H1, H2. subst. exists "", s. reflexivity.
    + intros ([|e a] & b & E); cbn in E; injection E as -> ->.
      * left. rewrite !Ascii.eqb_refl. reflexivity.
      * right. eauto.
Qed.
Lemma pair_in_app : forall x y t s, has y t = false -> pair_in x y (s ++ t) = pair_in x y s.
Proof.
  intros x y t s Ht.
  assert (Hn : pair_in x y t = false).
  { destruct (pair_in x y t) eqn:E; [|reflexivity]. apply pair_in_ok in E as (a & b & ->).
    rewrite has_app in Ht. cbn in Ht. rewrite Ascii.eqb_refl, !orb_true_r in Ht. discriminate. }
  induction s as [|c s IH]; cbn [append pair_in]; [exact Hn|]. rewrite IH. f_equal. f_equal.
  destruct s as [|d s]; cbn [append]; [|reflexivity]. destruct t as [|d t]; [reflexivity|].
  cbn in Ht. apply orb_false_elim in Ht as [Ht _]. rewrite Ascii.eqb_sym. exact Ht.
Qed.
Lemma ends_in : forall v u a c, v <> "" -> u ++ v = a ++ String c "" -> has c v = true.
Proof.
  intros v u. induction u as [|d u IH]; cbn [append]; intros a c Hv E.
  - subst v. rewrite has_app. cbn. rewrite Ascii.eqb_refl, orb_true_r. reflexivity.
  - destruct a as [|e a]; cbn in E.
    + injection E as _ E. destruct u; cbn in E; [congruence|discriminate].
    + injection E as _ E. eapply IH; eassumption.
Qed.

Lemma job_number : forall i, all_chars is_digit (zfill 3 (pystr (N.of_nat i))) = true /\ zfill 3 (pystr (N.of_nat i)) <> "".
Proof.
  intros i. split; [apply zfill_digits|]. unfold zfill. pose proof (pystr_nonempty (N.of_nat i)) as H.
  destruct (pystr (N.of_nat i)) as [|c s]; [congruence|].
  generalize (3 - String.length (String c s))%nat as n. intros [|n]; cbn; discriminate.
Qed.
Lemma folder_app : forall root t n, folder_text root -> all_chars printable t = true -> has " " t = false -> has "#" t = false ->
  n <> "" -> all_chars is_digit n = true -> plain_text (root ++ t ++ n).
Proof.
  intros root t n [H1 (c & r & E & Hc & Hi) H3 H4] Ht Hs Hh Hn Hd.
  assert (Hs' : has " " (t ++ n) = false) by (rewrite has_app, Hs; eapply clear; [exact Hd|reflexivity]).
  assert (Hh' : has "#" (t ++ n) = false) by (rewrite has_app, Hh; eapply clear; [exact Hd|reflexivity]).
  split.
  - rewrite !all_app, H1, Ht. cbn [andb]. revert Hd. apply all_impl. apply char_fact. vm_compute. reflexivity.
  - exists c, (r ++ t ++ n). subst root. split; [reflexivity|]. split; assumption.
  - intros a b K. assert (P : pair_in ":" " " (root ++ t ++ n) = true) by (apply pair_in_ok; exists a, b; exact K).
    rewrite pair_in_app in P by exact Hs'. apply pair_in_ok in P as (a' & b' & P). exact (H3 a' b' P).
  - intros a b K. assert (P : pair_in " " "#" (root ++ t ++ n) = true) by (apply pair_in_ok; exists a, b; exact K).
    rewrite pair_in_app in P by exact Hh'. apply pair_in_ok in P as (a' & b' & P). exact (H4 a' b' P).
  - intros a. split; intros K; rewrite <- append_assoc in K; apply ends_in in K; try exact Hn;
      rewrite (clear _ _ _ Hd) in K; try discriminate; reflexivity.
Qed.

Lemma job_folder : forall root i, folder_text root -> plain_text (join root (job_id i)) /\ ~ special (join root (job_id i)).
Proof.
  intros root i H. destruct (job_number i) as [Hd Hn]. split.
  - unfold join, job_id. destruct root as [|c r]; [destruct H as [_ (c & r & E & _) _ _]; discriminate|].
    destruct (ends_with_slash (String c r)).
    + apply (folder_app _ "job_"); auto.
    + change (String c r ++ "/" ++ "job_" ++ zfill 3 (pystr (N.of_nat i))) with (String c r ++ "/job_" ++ zfill 3 (pystr (N.of_nat i))).
      apply (folder_app _ "/job_"); auto.
  - apply (foreign_not_special "j"); [reflexivity|]. unfold join, job_id.
    destruct root; [reflexivity|]. destruct (ends_with_slash _); rewrite !has_app; cbn; rewrite ?orb_true_r; reflexivity.
Qed.
