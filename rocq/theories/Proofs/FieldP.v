From Coq Require Import String Ascii List Bool Floats.SpecFloat.
From Verif Require Import Base.Arith Base.Str Base.Outcome Spec.TextSpec Proofs.TextP Model.IpUtils Model.Ip Proofs.IpPrintP
  Model.Field Spec.FieldSpec.
Import ListNotations.
Local Open Scope string_scope.
Local Open Scope N_scope.

Lemma ip_eqb_eq a b : ip_eqb a b = true <-> a = b.
Proof. destruct a, b; cbn [ip_eqb]; rewrite ?N.eqb_eq; split; congruence. Qed.

Lemma streqb_sym a b : String.eqb a b = String.eqb b a.
Proof. destruct (String.eqb_spec a b) as [->|H]; [rewrite String.eqb_refl; reflexivity|]. symmetry. apply String.eqb_neq. congruence. Qed.

Lemma field_eqb_refl P f : field_eqb P f f = true.
Proof. destruct f; cbn [field_eqb]; rewrite ?String.eqb_refl; auto. apply ip_eqb_eq. reflexivity. Qed.

(** Fields compared through the text they stand for. *)
Definition named (f : field) : bool := match f with Text _ | Domain _ | User _ | AssetID _ | IP _ => true | _ => false end.
Definition is_Text (f : field) : bool := match f with Text _ => true | _ => false end.

Lemma named_eq P a b : field_ok a -> field_ok b -> named a = true -> named b = true ->
  (field_eqb P a b = true <-> display P a = display P b).
Proof.
  intros Ka Kb Ha Hb; destruct a, b; try discriminate Ha; try discriminate Hb; cbn [field_eqb display];
    rewrite ?String.eqb_eq; try (split; congruence).
  rewrite ip_eqb_eq. split; [congruence|]. apply ip_to_string_inj; assumption.
Qed.

Lemma untext_eq P a b : field_ok a -> field_ok b -> is_Text a = false -> is_Text b = false ->
  (field_eqb P a b = true <-> named a = named b /\ display P a = display P b).
Proof.
  intros Ka Kb Ha Hb. destruct (named a) eqn:Na, (named b) eqn:Nb.
  - rewrite named_eq by assumption. tauto.
  - split; [|intros [? _]; discriminate]. destruct a, b; try discriminate; cbn [field_eqb]; discriminate.
  - split; [|intros [? _]; discriminate]. destruct a, b; try discriminate; cbn [field_eqb]; discriminate.
  - destruct a, b; try discriminate; cbn [field_eqb]; rewrite ?String.eqb_eq; tauto.
Qed.

Lemma untext_equivalence P a b c : field_ok a -> field_ok b -> field_ok c ->
  is_Text a = false -> is_Text b = false -> is_Text c = false ->
  (field_eqb P a b = true -> field_eqb P b a = true) /\
  (field_eqb P a b = true -> field_eqb P b c = true -> field_eqb P a c = true).
Proof.
  intros Ka Kb Kc Ha Hb Hc. rewrite !untext_eq by assumption. intuition congruence.
Qed.
Lemma named_equivalence P a b c : field_ok a -> field_ok b -> field_ok c ->
  named a = true -> named b = true -> named c = true ->
  (field_eqb P a b = true -> field_eqb P b a = true) /\
  (field_eqb P a b = true -> field_eqb P b c = true -> field_eqb P a c = true).
Proof.
  intros Ka Kb Kc Ha Hb Hc. rewrite !named_eq by assumption. intuition congruence.
Qed.

Lemma text_always_equal P f t : named f = false -> field_eqb P f (Text t) = true.
Proof. destruct f; try discriminate; intros _; cbn [field_eqb display]; apply String.eqb_refl. Qed.

(** ** Hash *)
Lemma dec_inj a b : dec a = dec b -> a = b.
Proof. intros E. pose proof (parse_dec (N.max a b) a ltac:(lia)). pose proof (parse_dec (N.max a b) b ltac:(lia)). congruence. Qed.
Lemma dec_head_not_minus n s : dec n <> String "-" s.
Proof.
  intros E. pose proof (dec_no_char "-"%char n eq_refl) as H. rewrite E in H. discriminate H.
Qed.
Lemma dec_z_inj a b : dec_z a = dec_z b -> a = b.
Proof.
  unfold dec_z. destruct (Z.ltb_spec a 0), (Z.ltb_spec b 0); intros E.
  - injection E as E. apply dec_inj in E. lia.
  - symmetry in E. apply dec_head_not_minus in E. contradiction.
  - apply dec_head_not_minus in E. contradiction.
  - apply dec_inj in E. lia.
Qed.
Lemma dec_dec_z n z : dec n = dec_z z -> z = Z.of_N n.
Proof.
  intros E. apply dec_z_inj. rewrite <- E. unfold dec_z. replace (Z.of_N n <? 0)%Z with false by lia.
  rewrite N2Z.id. reflexivity.
Qed.
Lemma wrap_u64_of_N n : u64_ok n -> wrap_u64 (Z.of_N n) = n.
Proof. unfold u64_ok, wrap_u64. intros H. rewrite Z.mod_small by lia. apply N2Z.id. Qed.

Lemma hash_textual P a b s t : textual a s -> textual b t -> field_eqb P a b = true -> hash_field a = hash_field b.
Proof.
  intros Ha Hb; destruct Ha, Hb; cbn [field_eqb display]; intros E; apply String.eqb_eq in E; cbn [hash_field]; congruence.
Qed.
Lemma hash_ints P a b : field_ok a -> field_ok b -> 
  (exists z, a = I64 z \/ exists n, a = U64 n) -> (exists z, b = I64 z \/ exists n, b = U64 n) ->
  field_eqb P a b = true -> hash_field a = hash_field b.
Proof.
  intros Ka Kb (za & [->|(na & ->)]) (zb & [->|(nb & ->)]); cbn [field_eqb display]; intros E; apply String.eqb_eq in E; cbn [hash_field field_ok] in *.
  - apply dec_z_inj in E. congruence.
  - symmetry in E. apply dec_dec_z in E. subst. rewrite wrap_u64_of_N by exact Kb. reflexivity.
  - apply dec_dec_z in E. subst. rewrite wrap_u64_of_N by exact Ka. reflexivity.
  - apply dec_inj in E. congruence.
Qed.
Lemma hash_ip_ip P x y : field_eqb P (IP x) (IP y) = true -> hash_field (IP x) = hash_field (IP y).
Proof. cbn [field_eqb]. rewrite ip_eqb_eq. congruence. Qed.

(** ** Substrings *)
Lemma prefix_iff p s : prefix p s = true <-> exists b, s = p ++ b.
Proof.
  revert s; induction p as [|a p IH]; intros s; cbn [prefix append].
  - split; [intros _; exists s; reflexivity|destruct s; reflexivity].
  - destruct s as [|b s]; [split; [discriminate|intros [? [=]]]|]. cbn [prefix].
    destruct (ascii_dec a b) as [->|Hn].
    + rewrite IH. split; intros [x Hx]; exists x; [congruence|injection Hx; auto].
    + split; [discriminate|]. intros [x [= E _]]. congruence.
Qed.
Lemma str_contains_iff p s : str_contains p s = true <-> substring_of p s.
Proof.
  unfold substring_of. induction s as [|a s IH]; cbn [str_contains]; unfold starts_with.
  - rewrite ?orb_false_r. rewrite prefix_iff. split.
    + intros [b E]. exists "", b. exact E.
    + intros (x & b & E). destruct x as [|c x]; [exists b; exact E|discriminate].
  - rewrite orb_true_iff, prefix_iff, IH. split.
    + intros [[b E]|(x & b & E)]; [exists "", b; exact E|exists (String a x), b; rewrite E; reflexivity].
    + intros (x & b & E). destruct x as [|c x]; [left; exists b; exact E|right].
      injection E as -> E. exists x, b. exact E.
Qed.
Lemma str_contains_refl s : str_contains s s = true.
Proof. apply str_contains_iff. exists "", "". cbn [append]. rewrite str_app_nil_r. reflexivity. Qed.

Lemma contains_str_text f s p : textual f s -> (forall a, f <> AssetID a) -> (contains_str f p = true <-> substring_of p s).
Proof. intros H Hn; destruct H; cbn [contains_str]; try apply str_contains_iff. exfalso. apply (Hn s); reflexivity. Qed.
Lemma contains_str_asset a p : contains_str (AssetID a) p = true.
Proof. apply str_contains_refl. Qed.
Lemma contains_str_other f p : (forall s, ~ textual f s) -> contains_str f p = false.
Proof. intros H. destruct f; cbn [contains_str]; try reflexivity; exfalso; eapply H; constructor. Qed.
Lemma contains_field f g t : textual g t -> contains f g = contains_str f t.
Proof. intros H; destruct H; reflexivity. Qed.
Lemma contains_nontext f g : (forall s, ~ textual g s) -> contains f g = false.
Proof. intros H. destruct g; cbn [contains]; try reflexivity; exfalso; eapply H; constructor. Qed.

(** ** Conversions *)
Lemma to_str_iff f s : to_str f = Ok s <-> textual f s.
Proof. split; [destruct f; cbn [to_str]; intros [= <-]; constructor|intros H; destruct H; reflexivity]. Qed.
Lemma to_logstring_iff f s : to_logstring f = Ok s <-> textual f s.
Proof. split; [destruct f; cbn [to_logstring]; intros [= <-]; constructor|intros H; destruct H; reflexivity]. Qed.

Lemma to_u64_int f z : field_ok f -> integer_field f z -> (0 <= z)%Z -> to_u64 f = Ok (Z.to_N z).
Proof.
  intros K H Hz. destruct H as [n|z|z]; cbn [to_u64 field_ok] in *.
  - rewrite N2Z.id. reflexivity.
  - unfold wrap_u64, i64_ok in *. rewrite Z.mod_small by lia. reflexivity.
  - unfold wrap_u64, i64_ok in *. rewrite Z.mod_small by lia. reflexivity.
Qed.
Lemma to_i64_int f z : field_ok f -> integer_field f z -> (z < 2 ^ 63)%Z -> to_i64 f = Ok z.
Proof.
  intros K H Hz. destruct H as [n|z|z]; cbn [to_i64 field_ok] in *; try reflexivity.
  unfold wrap_i64. rewrite Z.mod_small by lia. f_equal. lia.
Qed.

Lemma trunc_mag_nonneg m e : (0 <= trunc_mag m e)%Z.
Proof. unfold trunc_mag. destruct (Z.leb_spec 0 e); [apply Z.mul_nonneg_nonneg; [lia|apply Z.pow_nonneg; lia]|]. apply Z.div_pos; [lia|]. apply Z.pow_pos_nonneg; lia. Qed.
Lemma truncates_mag s m e z : truncates (S754_finite s m e) z -> Z.abs z = trunc_mag m e.
Proof.
  cbn [truncates]. unfold trunc_mag. intros [_ [[He E]|[He B]]].
  - replace (0 <=? e)%Z with true by lia. exact E.
  - replace (0 <=? e)%Z with false by lia.
    assert (Hp : (0 < 2 ^ (- e))%Z) by (apply Z.pow_pos_nonneg; lia). set (p := (2 ^ (- e))%Z) in *.
    apply (Z.div_unique _ _ _ (Z.pos m - Z.abs z * p)%Z); lia.
Qed.
Lemma f64_trunc_i64 x z : truncates x z -> i64_ok z -> to_i64 (F64 x) = Ok z.
Proof.
  intros T K. cbn [to_i64]. f_equal. unfold i64_ok in K. destruct x as [s|s| |s m e]; try contradiction.
  - cbn in *. congruence.
  - pose proof (truncates_mag _ _ _ _ T) as M. destruct T as [T _]. cbn [f64_as_i64]. rewrite <- M. destruct s; lia.
Qed.
Lemma f64_trunc_u64 x z : truncates x z -> (0 <= z < 2 ^ 64)%Z -> to_u64 (F64 x) = Ok (Z.to_N z).
Proof.
  intros T K. cbn [to_u64]. f_equal. destruct x as [s|s| |s m e]; try contradiction.
  - cbn in *. rewrite T. reflexivity.
  - pose proof (truncates_mag _ _ _ _ T) as M. destruct T as [T _]. cbn [f64_as_u64]. rewrite <- M. destruct s; [lia|].
    f_equal. lia.
Qed.
(** every finite float has a truncation *)
Lemma truncates_ex s m e : exists z, truncates (S754_finite s m e) z.
Proof.
  exists (if s then (- trunc_mag m e)%Z else trunc_mag m e). pose proof (trunc_mag_nonneg m e) as H.
  cbn [truncates]. split; [destruct s; lia|].
  replace (Z.abs (if s then (- trunc_mag m e)%Z else trunc_mag m e)) with (trunc_mag m e) by (destruct s; lia).
  unfold trunc_mag. destruct (Z.leb_spec 0 e) as [He|He]; [left; auto|right].
  split; [exact He|]. assert (Hp : (0 < 2 ^ (- e))%Z) by (apply Z.pow_pos_nonneg; lia). set (p := (2 ^ (- e))%Z) in *.
  pose proof (Z.div_mod (Z.pos m) p ltac:(lia)). pose proof (Z.mod_pos_bound (Z.pos m) p Hp). nia.
Qed.

(** ** int -> f64 *)
Lemma digits2_log2 p : Z.pos (digits2_pos p) = (Z.log2 (Z.pos p) + 1)%Z.
Proof.
  assert (E : forall p, digits2_pos p = Pos.size p) by (intros q; induction q; simpl; congruence).
  destruct p; cbn [digits2_pos Z.log2]; rewrite ?E; lia.
Qed.
Lemma shr_zero r e : shr r e 0 = (r, e).
Proof. reflexivity. Qed.
Lemma shift_pos_mul d m : Z.pos (shift_pos d m) = (Z.pos m * 2 ^ Z.pos d)%Z.
Proof.
  unfold shift_pos. induction d as [|d IH] using Pos.peano_ind; [change (2 ^ 1)%Z with 2%Z; cbn [Pos.iter]; lia|].
  rewrite Pos.iter_succ, Pos2Z.inj_succ, Z.pow_succ_r by lia. rewrite Pos2Z.inj_xO, IH. lia.
Qed.

Lemma binary_round_exact s m : (Z.pos m < 2 ^ 53)%Z ->
  exists m' e, binary_round 53 1024 s m 0 = S754_finite s m' e /\ (e <= 0)%Z /\ Z.pos m' = (Z.pos m * 2 ^ (- e))%Z.
Proof.
  intros H.
  assert (Hl : (0 <= Z.log2 (Z.pos m) < 53)%Z) by (split; [apply Z.log2_nonneg|apply Z.log2_lt_pow2; lia]).
  unfold binary_round. rewrite digits2_log2, Z.add_0_r.
  set (L := Z.log2 (Z.pos m)) in *.
  assert (Hf : fexp 53 1024 (L + 1) = (L - 52)%Z) by (unfold fexp, emin; lia).
  rewrite Hf.
  assert (K : forall mz ez, (ez = L - 52)%Z -> Z.pos mz = (Z.pos m * 2 ^ (- ez))%Z ->
     binary_round_aux 53 1024 s (Z.pos mz) ez loc_Exact = S754_finite s mz ez).
  { intros mz ez He Hz. unfold binary_round_aux, shr_fexp. cbn [Zdigits2].
    assert (Hd : Z.pos (digits2_pos mz) = 53%Z).
    { rewrite digits2_log2, Hz. rewrite Z.log2_mul_pow2 by lia. fold L. lia. }
    rewrite Hd. replace (fexp 53 1024 (53 + ez) - ez)%Z with 0%Z by (unfold fexp, emin; lia).
    rewrite shr_zero. cbn [shr_record_of_loc shr_m loc_of_shr_record round_nearest_even Zdigits2].
    rewrite Hd. replace (fexp 53 1024 (53 + ez) - ez)%Z with 0%Z by (unfold fexp, emin; lia).
    rewrite shr_zero. cbn [shr_record_of_loc shr_m].
    replace (ez <=? 1024 - 53)%Z with true by lia. reflexivity. }
  unfold shl_align. rewrite Z.sub_0_r. destruct (L - 52)%Z as [|d|d] eqn:Ed; [|lia|].
  - exists m, 0%Z. splits; [apply K; [reflexivity|cbn; lia]|lia|cbn; lia].
  - exists (shift_pos d m), (Z.neg d). splits; [apply K; [reflexivity|apply shift_pos_mul]|lia|apply shift_pos_mul].
Qed.

Lemma int_as_f64_exact z : (- 2 ^ 53 < z < 2 ^ 53)%Z -> float_is (int_as_f64 z) z.
Proof.
  intros H. unfold int_as_f64, binary_normalize. destruct z as [|m|m].
  - reflexivity.
  - destruct (binary_round_exact false m ltac:(lia)) as (m' & e & -> & He & Hm). cbn [float_is].
    destruct (Z.eq_dec e 0) as [->|]; [left; split; [lia|]; cbn in Hm; lia|right; split; [lia|symmetry; exact Hm]].
  - destruct (binary_round_exact true m ltac:(lia)) as (m' & e & -> & He & Hm). cbn [float_is].
    assert (Hn : Z.neg m' = (Z.neg m * 2 ^ (- e))%Z) by lia.
    destruct (Z.eq_dec e 0) as [->|]; [left; split; [lia|]; cbn in Hn; lia|right; split; [lia|symmetry; exact Hn]].
Qed.
Lemma to_f64_int f z : integer_field f z -> (- 2 ^ 53 < z < 2 ^ 53)%Z -> exists x, to_f64 f = Ok x /\ float_is x z.
Proof. intros H Hz. destruct H; cbn [to_f64]; eexists; (split; [reflexivity|apply int_as_f64_exact; exact Hz]). Qed.

Lemma float_is_truncates x z : float_is x z -> truncates x z.
Proof.
  destruct x as [s|s| |s m e]; cbn [float_is truncates]; auto. cbv zeta. intros [[He E]|[He E]].
  - assert (0 < 2 ^ e)%Z by (apply Z.pow_pos_nonneg; lia). split; [destruct s; nia|]. left. split; [exact He|]. destruct s; nia.
  - assert (0 < 2 ^ (- e))%Z by (apply Z.pow_pos_nonneg; lia). split; [destruct s; nia|]. right. split; [exact He|]. destruct s; nia.
Qed.

(** ** Text of integers *)
Lemma parse_i64_dec_z z : i64_ok z -> parse_i64 (dec_z z) = Some z.
Proof.
  unfold i64_ok. intros H. unfold dec_z. destruct (Z.ltb_spec z 0) as [Hz|Hz].
  - cbn [parse_i64]. pose proof (parse_dec 9223372036854775808 (Z.to_N (- z)) ltac:(lia)) as P.
    pose proof (dec_not_empty (Z.to_N (- z))) as Ne. pose proof (dec_no_char "+"%char (Z.to_N (- z)) eq_refl) as Np.
    destruct (dec (Z.to_N (- z))) as [|a r]; [congruence|].
    cbn [parse_uint] in P. cbn [str_has] in Np. apply orb_false_iff in Np as [Np _]. rewrite Np in P. rewrite P. f_equal. lia.
  - pose proof (parse_dec 9223372036854775807 (Z.to_N z) ltac:(lia)) as P.
    pose proof (dec_head_not_minus (Z.to_N z)) as M.
    assert (E : parse_i64 (dec (Z.to_N z)) = match parse_uint 10 9223372036854775807 (dec (Z.to_N z)) with Some n => Some (Z.of_N n) | None => None end).
    { destruct (dec (Z.to_N z)) as [|a r]; [reflexivity|]. cbn [parse_i64].
      destruct a as [[] [] [] [] [] [] [] []]; try reflexivity. exfalso. apply (M r). reflexivity. }
    rewrite E, P. f_equal. lia.
Qed.
Lemma parse_u64_dec n : u64_ok n -> parse_u64 (dec n) = Some n.
Proof. unfold u64_ok. intros H. apply parse_dec. unfold u64_max. lia. Qed.

(** ** IP *)
Lemma to_ip_total f : field_ok f -> exists r, to_ip f = Val r /\ forall a, r = Ok a -> ip_ok a.
Proof.
  intros K. destruct f; cbn [to_ip field_ok] in *; try (eexists; split; [reflexivity|discriminate]).
  - destruct (from_ip_str_total s) as (r & -> & B). cbn [obind]. eexists; split; [reflexivity|].
    destruct r as [v|e]; intros x E; [apply B; congruence|discriminate].
  - eexists; split; [reflexivity|]. intros a [= <-]. exact K.
Qed.
Lemma to_ip_iff f a : to_ip f = Val (Ok a) <-> f = IP a \/ exists s, f = Text s /\ from_ip_str s = Val (Ok a).
Proof.
  split.
  - destruct f; cbn [to_ip]; try discriminate.
    + destruct (from_ip_str s) as [[x|e]| |] eqn:E; cbn [obind]; intros [= <-]. right. exists s. auto.
    + intros [= <-]. auto.
  - intros [->|(s & -> & E)]; [reflexivity|]. cbn [to_ip]. rewrite E. reflexivity.
Qed.

(** ** Case-insensitive comparison *)
Lemma eqic_iff f g s : textual f s -> (eq_ignore_ascii_case f g = true <-> exists t, textual g t /\ to_lower s = to_lower t).
Proof.
  intros H. unfold eq_ignore_ascii_case. rewrite (proj2 (to_str_iff f s) H). split.
  - destruct g; intros E; try discriminate; apply String.eqb_eq in E; eexists; (split; [constructor|congruence]).
  - intros (t & Ht & E). destruct Ht; apply String.eqb_eq; congruence.
Qed.

(** ** Packaged for the property file *)
Lemma not_Text_b a : (forall t, a <> Text t) -> is_Text a = false.
Proof. destruct a; intros H; try reflexivity. exfalso; eapply H; reflexivity. Qed.
Lemma named_b a : ((exists s, textual a s) \/ exists ip, a = IP ip) -> named a = true.
Proof. intros [[s H]|[ip ->]]; [destruct H; reflexivity|reflexivity]. Qed.
Lemma ints_eq P : 
  (forall x y, field_eqb P (IP x) (IP y) = true <-> x = y) /\
  (forall m n, field_eqb P (U64 m) (U64 n) = true <-> m = n) /\
  (forall y z, field_eqb P (I64 y) (I64 z) = true <-> y = z) /\
  (forall n z, field_eqb P (U64 n) (I64 z) = true <-> z = Z.of_N n) /\
  (forall n z, field_eqb P (I64 z) (U64 n) = true <-> z = Z.of_N n).
Proof.
  assert (D : forall n, dec_z (Z.of_N n) = dec n).
  { intros n. unfold dec_z. replace (Z.of_N n <? 0)%Z with false by lia. rewrite N2Z.id. reflexivity. }
  splits; intros; cbn [field_eqb display]; rewrite ?String.eqb_eq, ?ip_eqb_eq; try tauto.
  - split; [apply dec_inj|congruence].
  - split; [apply dec_z_inj|congruence].
  - split; [apply dec_dec_z|intros ->; symmetry; apply D].
  - split; [intros E; apply dec_dec_z; congruence|intros ->; apply D].
Qed.
Lemma hash_same_kind P a b : field_ok a -> field_ok b -> field_eqb P a b = true ->
  ((exists s t, textual a s /\ textual b t) \/
   ((exists z, a = I64 z \/ exists n, a = U64 n) /\ (exists z, b = I64 z \/ exists n, b = U64 n)) \/
   (exists x y, a = IP x /\ b = IP y)) ->
  hash_field a = hash_field b.
Proof.
  intros Ka Kb E [(s & t & Ha & Hb)|[[Ha Hb]|(x & y & -> & ->)]].
  - eapply hash_textual; eauto.
  - eapply hash_ints; eauto.
  - eapply hash_ip_ip; eauto.
Qed.
Lemma contains_str_iff f p : (forall a, f <> AssetID a) -> (contains_str f p = true <-> exists s, textual f s /\ substring_of p s).
Proof.
  intros Hn. split.
  - destruct f; cbn [contains_str]; try discriminate; intros E; try (exfalso; eapply Hn; reflexivity);
      eexists; (split; [constructor|apply str_contains_iff, E]).
  - intros (s & Ht & Hs). apply (contains_str_text f s p Ht Hn), Hs.
Qed.
Lemma contains_iff f g : (forall a, f <> AssetID a) ->
  (contains f g = true <-> exists s t, textual f s /\ textual g t /\ substring_of t s).
Proof.
  intros Hn. split.
  - intros E. destruct g; cbn [contains] in E; try discriminate;
      apply contains_str_iff in E as (s' & Hf & Hs); auto; exists s', s; (splits; [exact Hf|constructor|exact Hs]).
  - intros (s & t & Hf & Hg & Hs). rewrite (contains_field f g t Hg). apply contains_str_iff; eauto.
Qed.
Lemma int_float_int z : (- 2 ^ 53 < z < 2 ^ 53)%Z -> exists x, to_f64 (I64 z) = Ok x /\ to_i64 (F64 x) = Ok z.
Proof.
  intros H. exists (int_as_f64 z). split; [reflexivity|]. apply f64_trunc_i64; [apply float_is_truncates, int_as_f64_exact, H|].
  unfold i64_ok. lia.
Qed.
Lemma non_numeric f : (forall z, ~ integer_field f z) -> (forall x, f <> F64 x) ->
  to_u64 f = Err "Invalid type" /\ to_i64 f = Err "Invalid type" /\ to_f64 f = Err "Invalid type".
Proof.
  intros H1 H2. destruct f; try (splits; reflexivity); exfalso; try (eapply H1; constructor); eapply H2; reflexivity.
Qed.

(** Integers as text, in the other signedness *)
Lemma dec_z_nonneg z : (0 <= z)%Z -> dec_z z = dec (Z.to_N z).
Proof. intros H. unfold dec_z. destruct (Z.ltb_spec z 0); [lia|reflexivity]. Qed.
Lemma to_array_ok P f :
  (forall l, f = Array l -> to_array P f = Ok l) /\
  (forall s, textual f s \/ f = Path s -> to_array P f = Ok [s]) /\
  (forall z, field_ok f -> integer_field f z -> exists t, to_array P f = Ok [t] /\ ((z < 2 ^ 63)%Z -> parse_i64 t = Some z) /\ ((0 <= z)%Z -> parse_u64 t = Some (Z.to_N z))) /\
  (forall a, f = IP a -> to_array P f = Ok [ip_to_string a]) /\
  (forall x, f = F64 x -> to_array P f = Ok [f64_str P x]).
Proof.
  split; [intros l ->; reflexivity|]. split; [intros s [T| ->]; [destruct T|]; reflexivity|]. split.
  - intros z K T. destruct T as [n|z|z]; cbn [field_ok] in K.
    + exists (dec n). split; [reflexivity|]. split; intros H.
      * replace (dec n) with (dec_z (Z.of_N n)) by (rewrite dec_z_nonneg by lia; rewrite N2Z.id; reflexivity). apply parse_i64_dec_z. unfold i64_ok. lia.
      * rewrite N2Z.id. apply parse_u64_dec. exact K.
    + exists (dec_z z). split; [reflexivity|]. split; intros H; [apply parse_i64_dec_z; exact K|]. rewrite dec_z_nonneg by exact H.
      apply parse_u64_dec. unfold u64_ok. unfold i64_ok in K. apply N2Z.inj_lt. rewrite Z2N.id by exact H. change (Z.of_N (2 ^ 64)) with (2 ^ 64)%Z. lia.
    + exists (dec_z z). split; [reflexivity|]. split; intros H; [apply parse_i64_dec_z; exact K|]. rewrite dec_z_nonneg by exact H.
      apply parse_u64_dec. unfold u64_ok. unfold i64_ok in K. apply N2Z.inj_lt. rewrite Z2N.id by exact H. change (Z.of_N (2 ^ 64)) with (2 ^ 64)%Z. lia.
  - split; [intros a ->|intros x ->]; reflexivity.
Qed.
Lemma field_kinds f :
  (forall s, to_logstring_ref f = Ok s <-> f = Text s) /\
  (forall l, to_array_ref f = Ok l <-> f = Array l) /\
  (is_numeric f = true <-> exists n z x, f = U64 n \/ f = I64 z \/ f = F64 x) /\
  (is_text f = true <-> exists s l, textual f s \/ f = Path s \/ f = Array l).
Proof.
  split; [|split; [|split]].
  - intros s. destruct f; cbn; split; congruence.
  - intros l. destruct f; cbn; split; congruence.
  - split; [|intros (n & z & x & [->|[->| ->]]); reflexivity].
    destruct f; cbn; try discriminate; intros _; [exists n, 0%Z, S754_nan|exists 0%N, z, S754_nan|exists 0%N, 0%Z, f]; auto.
  - split; [|intros (s & l & [T|[->| ->]]); [destruct T|..]; reflexivity].
    destruct f; cbn; try discriminate; intros _;
      [exists s, []|exists s, []|exists s, []|exists s, []|exists EmptyString, l|exists p, []]; auto; left; constructor.
Qed.
