From Coq Require Import String Ascii List Bool Sorted.
From Verif Require Import Base.Arith Base.Ord Base.BTree Base.Str Base.Outcome Proofs.TextP Model.Ip Model.Field Model.Log
  Spec.FieldSpec Spec.LogSpec Proofs.IpPrintP Proofs.FieldP.
Import ListNotations.
Local Open Scope string_scope.

(** ** ASCII lower case is idempotent *)
Lemma lower_idem_ascii a : lower_ascii (lower_ascii a) = lower_ascii a.
Proof.
  assert (S : forallb (fun a => Ascii.eqb (lower_ascii (lower_ascii a)) (lower_ascii a)) ascii_all = true) by (vm_compute; reflexivity).
  rewrite forallb_forall in S. apply Ascii.eqb_eq, S, ascii_all_in.
Qed.
Lemma to_lower_idem s : to_lower (to_lower s) = to_lower s.
Proof. unfold to_lower. induction s as [|a s IH]; cbn [smap]; [reflexivity|]. rewrite lower_idem_ascii, IH. reflexivity. Qed.

(** ** Sorted lists are determined by their elements *)
Lemma sorted_ext (a b : list string) :
  StronglySorted (fun x y => String.compare x y = Lt) a -> StronglySorted (fun x y => String.compare x y = Lt) b ->
  (forall t, In t a <-> In t b) -> a = b.
Proof.
  intros Ha. revert b. induction Ha as [|x a Ha IH Hx]; intros b Hb E.
  - destruct b as [|y b]; [reflexivity|]. exfalso. apply (E y). left; reflexivity.
  - destruct Hb as [|y b Hb Hy]; [exfalso; apply (E x); left; reflexivity|].
    rewrite Forall_forall in Hx, Hy.
    assert (x = y).
    { destruct (proj1 (E x) (or_introl eq_refl)) as [->|Hin]; [reflexivity|].
      destruct (proj2 (E y) (or_introl eq_refl)) as [->|Hin2]; [reflexivity|].
      exfalso. apply Hy in Hin. apply Hx in Hin2. exact (@cmp_lt_irrefl string _ x (@cmp_lt_trans string _ x y x Hin2 Hin)). }
    subst y. f_equal. apply IH; [exact Hb|]. intros t. split; intros Ht.
    + destruct (proj1 (E t) (or_intror Ht)) as [->|H]; [|exact H]. exfalso. exact (@cmp_lt_irrefl string _ _ (Hx _ Ht)).
    + destruct (proj2 (E t) (or_intror Ht)) as [->|H]; [|exact H]. exfalso. exact (@cmp_lt_irrefl string _ _ (Hy _ Ht)).
Qed.

(** ** Field writes *)
Lemma field_put n m v l : log_field n (put m v l) = if keqb n m then Some v else log_field n l.
Proof. unfold log_field, put. cbn [l_fields]. rewrite bt_get_insert. destruct (keqb n m); reflexivity. Qed.
Lemma field_insert n m v l : log_field n (log_insert m v l) = if keqb n m then Some v else log_field n l.
Proof. unfold log_field, log_insert. cbn [l_fields]. rewrite bt_get_insert. destruct (keqb n m); reflexivity. Qed.
Lemma field_add_tag n t l : log_field n (add_tag t l) =
  if keqb n "tags" then Some (Array (map to_lower (bset_elems (bset_add (to_lower t) (l_tags l))))) else log_field n l.
Proof. unfold log_field, add_tag. cbn [l_fields]. rewrite bt_get_insert. destruct (keqb n "tags"); reflexivity. Qed.
Lemma header_set_put h s l : header_set h s l = put (header_name h) (Text s) l.
Proof. destruct h; reflexivity. Qed.
Lemma header_get_text h l : header_get h l = get_text (header_name h) l.
Proof. destruct h; reflexivity. Qed.

(** ** Caches *)
Definition cache_ok {T} (c : cache T) (r : outcome (result T string)) : Prop :=
  match c with
  | CNone => True
  | CSome v => r = Val (Ok v)
  | CInvalid => exists e, r = Val (Err e)
  end.
Record ifield_ok (P : printers) (f : ifield) : Prop := {
  ok_array : cache_ok (c_array f) (Val (to_array P (original f)));
  ok_text : cache_ok (c_text f) (Val (to_logstring (original f)));
  ok_u64 : cache_ok (c_u64 f) (Val (to_u64 (original f)));
  ok_i64 : cache_ok (c_i64 f) (Val (to_i64 (original f)));
  ok_f64 : cache_ok (c_f64 f) (Val (to_f64 (original f)));
  ok_ip : cache_ok (c_ip f) (to_ip (original f)) }.
Lemma ifield_of_ok P v : ifield_ok P (ifield_of v).
Proof. destruct v; split; cbn; auto. Qed.
Definition caches_ok (P : printers) (l : log) : Prop := forall n f, bt_get n (l_fields l) = Some f -> ifield_ok P f.

Lemma to_ip_val f : exists r, to_ip f = Val r.
Proof.
  destruct f; cbn [to_ip]; try (eexists; reflexivity).
  destruct (from_ip_str_total s) as (r & -> & _). cbn [obind]. eexists; reflexivity.
Qed.

Definition to_opt {T} (r : outcome (result T string)) : option T := match r with Val (Ok v) => Some v | _ => None end.

Lemma cached_spec {T} P (get : ifield -> cache T) set conv n l :
  (forall c f, original (set c f) = original f) ->
  (forall f, exists r, conv f = Val r) ->
  (forall f, ifield_ok P f -> cache_ok (get f) (conv (original f))) ->
  (forall c f, ifield_ok P f -> cache_ok c (conv (original f)) -> ifield_ok P (set c f)) ->
  caches_ok P l ->
  exists l', cached get set conv n l =
      Val (match log_field n l with Some f => to_opt (conv f) | None => None end, l') /\
    (forall m, log_field m l' = log_field m l) /\ caches_ok P l' /\ l_tags l' = l_tags l /\ l_ip_fields l' = l_ip_fields l /\
    (bt_wf (l_fields l) -> bt_wf (l_fields l')) /\ (forall m, has_field m l' = has_field m l).
Proof.
  intros Horig Htot Hget Hset Hok. unfold cached, log_field.
  destruct (bt_get n (l_fields l)) as [f|] eqn:E; cbn [option_map]; [|exists l; splits; auto].
  pose proof (Hok n f E) as Kf. pose proof (Hget f Kf) as Kc. destruct (get f) as [| |v] eqn:Eg.
  - destruct Kc as [e Ke]. rewrite Ke. exists l; splits; auto.
  - destruct (Htot (original f)) as [r Er]. rewrite Er. cbn [obind].
    set (c := match r with Ok v => CSome v | Err _ => CInvalid end).
    exists (mkLog (l_tags l) (bt_insert n (set c f) (l_fields l)) (l_ip_fields l)). splits; auto; cbn [l_fields l_tags].
    + intros m. rewrite bt_get_insert. destruct (keqb_spec m n) as [->|]; [|reflexivity]. rewrite E. cbn [option_map]. rewrite Horig. reflexivity.
    + intros m g. cbn [l_fields]. rewrite bt_get_insert. destruct (keqb m n); [intros [= <-]|apply Hok].
      apply Hset; [exact Kf|]. rewrite Er. subst c. destruct r; cbn [cache_ok]; eauto.
    + apply wf_insert.
    + intros m. unfold has_field. cbn [l_fields]. rewrite bt_has_insert. destruct (keqb_spec m n) as [->|]; [|reflexivity].
      unfold bt_has. rewrite E. reflexivity.
  - rewrite Kc. exists l; splits; auto.
Qed.

Definition read_ok {T} (P : printers) (conv : field -> outcome (result T string)) (n : string) (l : log) (o : outcome (option T * log)) : Prop :=
  exists l', o = Val (match log_field n l with Some f => to_opt (conv f) | None => None end, l') /\
    (forall m, log_field m l' = log_field m l) /\ caches_ok P l' /\ l_tags l' = l_tags l /\ l_ip_fields l' = l_ip_fields l /\
    (bt_wf (l_fields l) -> bt_wf (l_fields l')) /\ (forall m, has_field m l' = has_field m l).

Ltac cache_tac := intros; try (eexists; reflexivity); try reflexivity;
  match goal with H : ifield_ok _ _ |- _ => destruct H; try (split; cbn; assumption); assumption | _ => idtac end.
Lemma i64_spec P n l : caches_ok P l -> read_ok P (fun f => Val (to_i64 f)) n l (i64_field n l).
Proof. intros H. eapply cached_spec; [| | | |exact H]; cache_tac. Qed.
Lemma u64_spec P n l : caches_ok P l -> read_ok P (fun f => Val (to_u64 f)) n l (u64_field n l).
Proof. intros H. eapply cached_spec; [| | | |exact H]; cache_tac. Qed.
Lemma f64_spec P n l : caches_ok P l -> read_ok P (fun f => Val (to_f64 f)) n l (f64_field n l).
Proof. intros H. eapply cached_spec; [| | | |exact H]; cache_tac. Qed.
Lemma txt_spec P n l : caches_ok P l -> read_ok P (fun f => Val (to_logstring f)) n l (txt_field n l).
Proof. intros H. eapply cached_spec; [| | | |exact H]; cache_tac. Qed.
Lemma arr_spec P n l : caches_ok P l -> read_ok P (fun f => Val (to_array P f)) n l (array_field P n l).
Proof. intros H. eapply cached_spec; [| | | |exact H]; cache_tac. Qed.
Lemma ip_spec P n l : caches_ok P l -> read_ok P to_ip n l (ip_field n l).
Proof. intros H. eapply cached_spec; [| |  | |exact H]; cache_tac. apply to_ip_val. Qed.

(** ** The invariant of reachable logs *)
Definition ip_inserted (h : list op) (n : string) : Prop := exists a, In (OInsert n (IP a)) h.
Definition tags_lists (h : list op) (s : bset string) : Prop := bt_wf s /\ forall t, In t (bset_elems s) <-> In t (added_tags h).
Record reach (P : printers) (l0 : log) (h : list op) (l : log) : Prop := {
  r_wf : bt_wf (l_fields l);
  r_caches : caches_ok P l;
  r_tags : tags_lists h (l_tags l);
  r_ips_wf : bt_wf (l_ip_fields l);
  r_ips : forall n, In n (bset_elems (l_ip_fields l)) <-> ip_inserted h n;
  r_has : forall n, In n (bset_elems (l_ip_fields l)) -> has_field n l = true;
  r_written : forall n v, written h n v -> log_field n l = Some v;
  r_untouched : forall n, untouched h n -> log_field n l = log_field n l0;
  r_touched : forall n, untouched h n \/ exists v, written h n v }.

Definition touches (o : op) (n : string) : bool :=
  match o with
  | OInsert n' _ => keqb n n'
  | OHeader k _ => keqb n (header_name k)
  | OCreated _ => keqb n "event.created"
  | OTag _ => keqb n "tags"
  | ORead _ _ => false
  end.

Lemma added_tags_app h1 h2 : added_tags (h1 ++ h2) = (added_tags h1 ++ added_tags h2)%list.
Proof. induction h1 as [|o h1 IH]; [reflexivity|]. destruct o; cbn [app added_tags]; rewrite IH; reflexivity. Qed.

Lemma elems_add (t x : string) (s : bset string) : In x (bset_elems (bset_add t s)) <-> x = t \/ In x (bset_elems s).
Proof.
  unfold bset_elems, bset_add. rewrite <- !bt_has_keys, bt_has_insert, orb_true_iff, keqb_eq. tauto.
Qed.

Lemma tags_lists_tag h s t : tags_lists h s -> tags_lists (h ++ [OTag t]) (bset_add (to_lower t) s).
Proof.
  intros [W E]. split; [apply wf_insert, W|]. intros x. rewrite elems_add, E, added_tags_app, in_app_iff. cbn [added_tags In]. intuition.
Qed.
Lemma added_lower h t : In t (added_tags h) -> to_lower t = t.
Proof. induction h as [|o h IH]; [intros []|]. destruct o; cbn [added_tags]; auto. intros [<-|H]; [apply to_lower_idem|auto]. Qed.
Lemma map_lower_tags h s : tags_lists h s -> map to_lower (bset_elems s) = bset_elems s.
Proof.
  intros [_ E]. rewrite <- (map_id (bset_elems s)) at 2. apply map_ext_in. intros t Ht. apply (added_lower h). apply E, Ht.
Qed.
Lemma tags_lists_lists h s : tags_lists h s -> lists (added_tags h) (bset_elems s).
Proof. intros [W E]. split; [exact (@bt_keys_sorted string unit _ s W)|exact E]. Qed.

Lemma snoc_inj {A} (a b : list A) x y : (a ++ [x])%list = (b ++ [y])%list -> a = b /\ x = y.
Proof. apply app_inj_tail. Qed.
Lemma app_not_nil {A} (a : list A) x : (a ++ [x])%list <> [].
Proof. destruct a; discriminate. Qed.

Lemma written_inv h o n v : written (h ++ [o]) n v ->
  (touches o n = true /\
    match o with
    | OInsert n' v' => n = n' /\ v = v'
    | OHeader k s => n = header_name k /\ v = Text s
    | OCreated z => n = "event.created" /\ v = I64 z
    | OTag t => n = "tags" /\ exists l, lists (added_tags (h ++ [OTag t])) l /\ v = Array l
    | ORead _ _ => False
    end) \/ (touches o n = false /\ written h n v).
Proof.
  intros H. remember (h ++ [o])%list as hh eqn:E.
  destruct H as [h' n v|h' k s|h' z|h' t l Hl|h' o' n v Hw Ho]; apply snoc_inj in E as [-> <-].
  - left. cbn [touches]. rewrite keqb_refl. auto.
  - left. cbn [touches]. rewrite keqb_refl. auto.
  - left. auto.
  - left. split; [reflexivity|]. split; [reflexivity|]. exists l. auto.
  - right. split; [|exact Hw]. destruct o'; cbn [touches]; try apply keqb_neq; auto.
Qed.

Lemma touches_spec o n : touches o n = false <->
    match o with
    | OInsert n' _ => n' <> n
    | OHeader k _ => header_name k <> n
    | OCreated _ => "event.created" <> n
    | OTag _ => "tags" <> n
    | ORead _ _ => True
    end.
Proof. destruct o; cbn [touches]; rewrite ?keqb_neq; try tauto; split; congruence. Qed.
Lemma untouched_snoc h o n : untouched (h ++ [o]) n <-> untouched h n /\ touches o n = false.
Proof.
  unfold untouched. rewrite Forall_app, touches_spec. split; intros [H1 H2]; split; auto. inversion H2; auto.
Qed.

Lemma has_field_field n l : has_field n l = match log_field n l with Some _ => true | None => false end.
Proof. unfold has_field, log_field, bt_has. destruct (bt_get n (l_fields l)); reflexivity. Qed.

(** One step keeps the invariant. [new] is the value an operation writes. *)
Lemma reach_write P l0 h l o l' n v :
  reach P l0 h l ->
  (forall m, log_field m l' = if keqb m n then Some v else log_field m l) ->
  bt_wf (l_fields l') -> caches_ok P l' ->
  tags_lists (h ++ [o]) (l_tags l') ->
  bt_wf (l_ip_fields l') -> (forall m, In m (bset_elems (l_ip_fields l')) <-> ip_inserted (h ++ [o]) m) ->
  (forall m, In m (bset_elems (l_ip_fields l')) -> m = n \/ In m (bset_elems (l_ip_fields l))) ->
  (forall m, touches o m = keqb m n) -> written (h ++ [o]) n v ->
  (forall w, written (h ++ [o]) n w -> w = v) ->
  reach P l0 (h ++ [o]) l'.
Proof.
  intros R Hf Hw Hc Ht Hiw Hi Hsub Htch Hwr Huniq. split; auto.
  - intros m Hm. rewrite has_field_field, Hf. destruct (keqb_spec m n) as [|Hne]; [reflexivity|].
    destruct (Hsub m Hm) as [|Hm']; [contradiction|]. apply (r_has _ _ _ _ R) in Hm'. rewrite has_field_field in Hm'. exact Hm'.
  - intros m w Hmw. rewrite Hf. destruct (keqb_spec m n) as [->|Hne].
    + f_equal. symmetry. apply Huniq, Hmw.
    + apply written_inv in Hmw as [[T _]|[_ Hmw]]; [rewrite Htch in T; apply keqb_eq in T; contradiction|].
      apply (r_written _ _ _ _ R), Hmw.
  - intros m Hm. apply untouched_snoc in Hm as [Hm T]. rewrite Htch in T. rewrite Hf, T. apply (r_untouched _ _ _ _ R), Hm.
  - intros m. rewrite untouched_snoc. destruct (touches o m) eqn:T.
    + right. rewrite Htch in T. apply keqb_eq in T. subst m. exists v. exact Hwr.
    + destruct (r_touched _ _ _ _ R m) as [Hu|[w Hw']]; [left; auto|right; exists w].
      apply w_later; [exact Hw'|]. apply touches_spec, T.
Qed.

Lemma caches_insert P n v (fs : bt string ifield) : (forall m f, bt_get m fs = Some f -> ifield_ok P f) ->
  forall m f, bt_get m (bt_insert n (ifield_of v) fs) = Some f -> ifield_ok P f.
Proof. intros H m f. rewrite bt_get_insert. destruct (keqb m n); [intros [= <-]; apply ifield_of_ok|apply H]. Qed.
Lemma ip_inserted_snoc h o n : ip_inserted (h ++ [o]) n <-> ip_inserted h n \/ exists a, o = OInsert n (IP a).
Proof.
  unfold ip_inserted. split.
  - intros [a H]. apply in_app_or in H as [H|[H|[]]]; [left|right]; eauto.
  - intros [[a H]|[a ->]]; exists a; apply in_or_app; [left; exact H|right; left; reflexivity].
Qed.
Lemma tags_same h o s : (forall t, o <> OTag t) -> tags_lists h s -> tags_lists (h ++ [o]) s.
Proof.
  intros Hn [W E]. split; [exact W|]. intros t. rewrite added_tags_app, in_app_iff, E.
  destruct o; cbn [added_tags In]; try tauto. exfalso; eapply Hn; reflexivity.
Qed.

Lemma reach_read {T} P l0 h l k n (conv : field -> outcome (result T string)) o :
  reach P l0 h l -> read_ok P conv n l o -> exists l', forget o = Val l' /\ reach P l0 (h ++ [ORead k n]) l'.
Proof.
  intros R (l' & -> & Hf & Hc & Ht & Hi & Hw & Hh). exists l'. split; [reflexivity|].
  assert (IPI : forall m, ip_inserted (h ++ [ORead k n]) m <-> ip_inserted h m).
  { intros m. rewrite ip_inserted_snoc. split; [intros [H|[a [=]]]; exact H|auto]. }
  split; auto.
  - apply Hw, (r_wf _ _ _ _ R).
  - rewrite Ht. apply tags_same; [discriminate|apply (r_tags _ _ _ _ R)].
  - rewrite Hi. apply (r_ips_wf _ _ _ _ R).
  - intros m. rewrite Hi, IPI. apply (r_ips _ _ _ _ R).
  - intros m. rewrite Hi, Hh. apply (r_has _ _ _ _ R).
  - intros m v H. rewrite Hf. apply written_inv in H as [[T' _]|[_ H]]; [discriminate|]. apply (r_written _ _ _ _ R), H.
  - intros m H. apply untouched_snoc in H as [H _]. rewrite Hf. apply (r_untouched _ _ _ _ R), H.
  - intros m. rewrite untouched_snoc. destruct (r_touched _ _ _ _ R m) as [Hu|[w Hw']]; [left; auto|right; exists w].
    apply w_later; auto.
Qed.

Lemma reach_put P l0 h l o n v : reach P l0 h l -> (forall t, o <> OTag t) -> (forall m a, o <> OInsert m (IP a)) ->
  (forall m, touches o m = keqb m n) -> written (h ++ [o]) n v -> (forall w, written (h ++ [o]) n w -> w = v) ->
  reach P l0 (h ++ [o]) (put n v l).
Proof.
  intros R Nt Ni Ht Hw Hu. eapply reach_write; eauto.
  - intros m. apply field_put.
  - apply wf_insert, (r_wf _ _ _ _ R).
  - exact (caches_insert P n v _ (r_caches _ _ _ _ R)).
  - apply tags_same; [exact Nt|apply (r_tags _ _ _ _ R)].
  - apply (r_ips_wf _ _ _ _ R).
  - intros m. rewrite ip_inserted_snoc. cbn [put l_ip_fields]. rewrite (r_ips _ _ _ _ R). split; [auto|].
    intros [H|[a E]]; [exact H|]. exfalso. exact (Ni m a E).
Qed.

Lemma reach_step P l0 h l o : reach P l0 h l -> exists l', step P o l = Val l' /\ reach P l0 (h ++ [o]) l'.
Proof.
  intros R. destruct o as [n v|k s|z|t|k n]; cbn [step].
  - eexists; split; [reflexivity|]. eapply reach_write; eauto.
    + intros m. apply field_insert.
    + apply wf_insert, (r_wf _ _ _ _ R).
    + exact (caches_insert P n v _ (r_caches _ _ _ _ R)).
    + apply tags_same; [discriminate|apply (r_tags _ _ _ _ R)].
    + cbn [log_insert l_ip_fields]. destruct v; try apply (r_ips_wf _ _ _ _ R). apply wf_insert, (r_ips_wf _ _ _ _ R).
    + intros m. rewrite ip_inserted_snoc. cbn [log_insert l_ip_fields]. destruct v;
        try (rewrite (r_ips _ _ _ _ R); split; [auto|intros [H|[a [=]]]; exact H]).
      rewrite elems_add, (r_ips _ _ _ _ R). split; [intros [->|H]; [right; eauto|auto]|intros [H|[a [= -> _]]]; auto].
    + intros m. cbn [log_insert l_ip_fields]. destruct v; auto. rewrite elems_add. auto.
    + reflexivity.
    + constructor.
    + intros w H. apply written_inv in H as [[_ [_ E]]|[T _]]; [exact E|]. cbn [touches] in T. rewrite keqb_refl in T. discriminate.
  - eexists; split; [reflexivity|]. rewrite header_set_put. apply reach_put; auto; try discriminate.
    + constructor.
    + intros w H. apply written_inv in H as [[_ [_ E]]|[T _]]; [exact E|]. cbn [touches] in T. rewrite keqb_refl in T. discriminate.
  - eexists; split; [reflexivity|]. apply reach_put; auto; try discriminate.
    + constructor.
    + intros w H. apply written_inv in H as [[_ [_ E]]|[T _]]; [exact E|]. discriminate T.
  - eexists; split; [reflexivity|].
    pose proof (tags_lists_tag h (l_tags l) t (r_tags _ _ _ _ R)) as TL.
    eapply reach_write with (n := "tags"); eauto.
    + intros m. rewrite field_add_tag. rewrite (map_lower_tags _ _ TL). reflexivity.
    + apply wf_insert, (r_wf _ _ _ _ R).
    + exact (caches_insert P "tags" _ _ (r_caches _ _ _ _ R)).
    + apply (r_ips_wf _ _ _ _ R).
    + intros m. rewrite ip_inserted_snoc. cbn [add_tag l_ip_fields]. rewrite (r_ips _ _ _ _ R). split; [auto|].
      intros [H|[a [=]]]; exact H.
    + constructor. apply tags_lists_lists, TL.
    + intros w H. apply written_inv in H as [[_ [_ (l2 & L2 & ->)]]|[T _]]; [|discriminate T]. f_equal.
      destruct L2 as [S2 E2]. destruct (tags_lists_lists _ _ TL) as [S1 E1]. apply sorted_ext; auto.
      intros x. rewrite E2, E1. tauto.
  - pose proof (r_caches _ _ _ _ R) as C.
    destruct k; [eapply (reach_read P l0 h l KI64 n _ _ R (i64_spec P n l C))|eapply (reach_read P l0 h l KU64 n _ _ R (u64_spec P n l C))
     |eapply (reach_read P l0 h l KF64 n _ _ R (f64_spec P n l C))|eapply (reach_read P l0 h l KIp n _ _ R (ip_spec P n l C))
     |eapply (reach_read P l0 h l KText n _ _ R (txt_spec P n l C))|eapply (reach_read P l0 h l KArray n _ _ R (arr_spec P n l C))].
Qed.

Lemma log_new_wf m r o : bt_wf (l_fields (log_new m r o)).
Proof. unfold log_new, put. cbn [l_fields]. repeat apply wf_insert. apply wf_empty. Qed.
Lemma reach_new P m r o : reach P (log_new m r o) [] (log_new m r o).
Proof.
  split.
  - apply log_new_wf.
  - unfold caches_ok, log_new, put. cbn [l_fields]. repeat apply caches_insert. intros n f; discriminate.
  - split; [constructor|]. intros t; cbn; tauto.
  - constructor.
  - intros n. split; [intros []|intros [a []]].
  - intros n [].
  - intros n v H. inversion H as [h n' v' E|h k s E|h z E|h t l Hl E|h o' n' v' Hw Ho E]; exfalso; eapply app_not_nil; exact E.
  - reflexivity.
  - intros n. left. constructor.
Qed.

Lemma run_app P h1 : forall h2 l, run P (h1 ++ h2) l = obind (run P h1 l) (run P h2).
Proof.
  induction h1 as [|o h1 IH]; intros h2 l; cbn [app run]; [reflexivity|].
  destruct (step P o l); cbn [obind]; auto.
Qed.
Lemma reach_run P h m r o : exists l, run P h (log_new m r o) = Val l /\ reach P (log_new m r o) h l.
Proof.
  induction h as [|x h IH] using rev_ind.
  - exists (log_new m r o). split; [reflexivity|apply reach_new].
  - destruct IH as (l & E & R). destruct (reach_step P _ h l x R) as (l' & E' & R').
    exists l'. split; [|exact R']. rewrite run_app, E. cbn [obind run]. rewrite E'. reflexivity.
Qed.
Lemma reach_of_run P h m r o l : run P h (log_new m r o) = Val l -> reach P (log_new m r o) h l.
Proof. intros E. destruct (reach_run P h m r o) as (l' & E' & R). congruence. Qed.

(** ** Iteration *)
Lemma iter_field l n v : bt_wf (l_fields l) -> (In (n, v) (log_iter l) <-> log_field n l = Some v).
Proof.
  intros W. unfold log_iter, log_field. rewrite in_map_iff. split.
  - intros ([k f] & [= <- <-] & Hin). cbn [fst snd]. rewrite (wf_In_get k f _ W Hin). reflexivity.
  - destruct (bt_get n (l_fields l)) as [f|] eqn:E; [|discriminate]. intros [= <-]. exists (n, f). split; [reflexivity|].
    apply bt_get_In, E.
Qed.
Lemma iter_keys l : map fst (log_iter l) = bt_keys (l_fields l).
Proof. unfold log_iter, bt_keys. rewrite map_map. reflexivity. Qed.
Lemma iter_nodup l : bt_wf (l_fields l) -> NoDup (map fst (log_iter l)).
Proof. intros W. rewrite iter_keys. apply bt_keys_nodup, W. Qed.

Lemma ip_iter_in names fs n v : (forall m, In m names -> bt_has m fs = true) ->
  (In (n, v) (ip_iter names fs) <-> In n names /\ option_map original (bt_get n fs) = Some v).
Proof.
  induction names as [|m names IH]; intros H; cbn [ip_iter].
  - cbn. tauto.
  - assert (Hm := H m (or_introl eq_refl)). unfold bt_has in Hm. destruct (bt_get m fs) as [f|] eqn:E; [|discriminate].
    cbn [In]. rewrite IH by (intros; apply H; right; assumption). split.
    + intros [[= <- <-]|[H1 H2]]; [rewrite E; auto|auto].
    + intros [[<-|H1] H2]; [left|right; auto]. rewrite E in H2. cbn in H2. congruence.
Qed.

Lemma written_ip_inserted h n a : written h n (IP a) -> ip_inserted h n.
Proof.
  intros H. remember (IP a) as v eqn:E. induction H; subst; try discriminate.
  - exists a. apply in_or_app. right; left; reflexivity.
  - destruct (IHwritten eq_refl) as [b Hb]. exists b. apply in_or_app; left; exact Hb.
Qed.
Lemma new_no_ip m r o n a : log_field n (log_new m r o) <> Some (IP a).
Proof.
  unfold log_new. rewrite !field_put. repeat destruct (keqb _ _); try discriminate.
Qed.
Lemma ip_fields_reach P m r o h l n v : reach P (log_new m r o) h l ->
  (In (n, v) (ip_fields l) <-> ip_inserted h n /\ log_field n l = Some v).
Proof.
  intros R. unfold ip_fields. rewrite ip_iter_in by (intros x Hx; exact (r_has _ _ _ _ R x Hx)).
  rewrite (r_ips _ _ _ _ R). reflexivity.
Qed.
Lemma ip_fields_complete P m r o h l n a : reach P (log_new m r o) h l -> log_field n l = Some (IP a) -> In (n, IP a) (ip_fields l).
Proof.
  intros R E. rewrite (ip_fields_reach _ _ _ _ _ _ _ _ R). split; [|exact E].
  destruct (r_touched _ _ _ _ R n) as [U|[v W]].
  - exfalso. rewrite (r_untouched _ _ _ _ R n U) in E. exact (new_no_ip _ _ _ _ _ E).
  - assert (E2 := r_written _ _ _ _ R n v W). rewrite E in E2. injection E2 as <-. eapply written_ip_inserted; exact W.
Qed.
(** Names that only ever receive IPs. *)
Lemma written_insert_only h n v : written h n v ->
  (forall w, In (OInsert n w) h -> exists a, w = IP a) -> (forall k s, In (OHeader k s) h -> header_name k <> n) ->
  n <> "event.created" -> n <> "tags" -> exists a, v = IP a.
Proof.
  induction 1; intros H1 H2 H3 H4.
  - apply H1. apply in_or_app; right; left; reflexivity.
  - exfalso. eapply H2; [apply in_or_app; right; left; reflexivity|reflexivity].
  - exfalso; apply H3; reflexivity.
  - exfalso; apply H4; reflexivity.
  - apply IHwritten; auto.
    + intros w Hw. apply H1. apply in_or_app; left; exact Hw.
    + intros k s Hw. eapply H2. apply in_or_app; left; exact Hw.
Qed.
Lemma ip_inserted_touched h n : ip_inserted h n -> ~ untouched h n.
Proof.
  intros [a H] U. unfold untouched in U. rewrite Forall_forall in U. apply U in H. apply H; reflexivity.
Qed.
Lemma ip_fields_sound P m r o h l n v : reach P (log_new m r o) h l ->
  (forall w, In (OInsert n w) h -> exists a, w = IP a) -> (forall k s, In (OHeader k s) h -> header_name k <> n) ->
  n <> "event.created" -> n <> "tags" ->
  In (n, v) (ip_fields l) -> exists a, v = IP a.
Proof.
  intros R H1 H2 H3 H4 H. rewrite (ip_fields_reach _ _ _ _ _ _ _ _ R) in H. destruct H as [Hi Hf].
  destruct (r_touched _ _ _ _ R n) as [U|[w W]]; [exfalso; exact (ip_inserted_touched _ _ Hi U)|].
  assert (E2 := r_written _ _ _ _ R n w W). rewrite Hf in E2. injection E2 as ->. eapply written_insert_only; eauto.
Qed.

Lemma mem_elems (t : string) (s : bset string) : bset_mem t s = true <-> In t (bset_elems s).
Proof. apply bt_has_keys. Qed.
Lemma has_tag_reach P l0 h l t : reach P l0 h l -> (has_tag t l = true <-> In t (added_tags h)).
Proof. intros R. unfold has_tag. rewrite mem_elems. apply (r_tags _ _ _ _ R). Qed.
Lemma tags_field P l0 h l t l' : reach P l0 h l -> l' = add_tag t l -> log_field "tags" l' = Some (Array (log_tags l')).
Proof.
  intros R ->. rewrite field_add_tag, keqb_refl. f_equal. f_equal.
  apply (map_lower_tags (h ++ [OTag t])), tags_lists_tag, (r_tags _ _ _ _ R).
Qed.
Lemma lists_nodup ts l : lists ts l -> NoDup l.
Proof.
  intros [S _]. induction S as [|x l S IH F]; constructor; [|exact IH]. intros Hin. rewrite Forall_forall in F.
  exact (@cmp_lt_irrefl string _ x (F _ Hin)).
Qed.
Lemma header_name_inj h k : header_name h = header_name k -> h = k.
Proof. destruct h, k; intros; try reflexivity; discriminate. Qed.
