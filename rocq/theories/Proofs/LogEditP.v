From Coq Require Import String List ZArith Bool.
From Verif Require Import Base.Arith Base.Ord Base.BTree Base.Str Base.Outcome Model.Ip Model.Field Model.Log Model.Schema
  Spec.LogSpec Spec.LogEditSpec Proofs.LogP Proofs.SchemaP.
Import ListNotations.
Local Open Scope string_scope.

Definition cmap {T} (c : T -> value) (x : cache T) : cache value := match x with CInvalid => CInvalid | CNone => CNone | CSome v => CSome (c v) end.
Definition kcache (k : read_kind) (f : ifield) : cache value :=
  match k with KI64 => cmap AI64 (c_i64 f) | KU64 => cmap AU64 (c_u64 f) | KF64 => cmap AF64 (c_f64 f) | KIp => cmap AIp (c_ip f)
             | KText => cmap AText (c_text f) | KArray => cmap AArray (c_array f) end.
Definition of_cache (c : cache value) : option value := match c with CSome v => Some v | _ => None end.

Lemma converts_fun P k f a b : converts P k f a -> converts P k f b -> a = b.
Proof. intros A B. inversion A; subst; inversion B; subst; try reflexivity. congruence. Qed.
Lemma converts_total P k f : exists a, converts P k f a.
Proof. destruct k; try (eexists; constructor; fail). destruct (to_ip_val f) as [r E]. exists (ok_of AIp r). apply Cv_ip. exact E. Qed.

(** ** What a read does *)
Definition settled (k : read_kind) (n : string) (a : option value) (l : log) : Prop :=
  match bt_get n (l_fields l) with None => a = None | Some f => kcache k f <> CNone /\ of_cache (kcache k f) = a end.
Definition open (k : read_kind) (n : string) (l : log) : Prop :=
  match bt_get n (l_fields l) with None => True | Some f => kcache k f = CNone end.

Definition spec_read (P : printers) (k : read_kind) (n : string) (l : log) (o : outcome (option value * log)) : Prop :=
  exists a l', o = Val (a, l') /\ settled k n a l' /\
    (forall b, settled k n b l -> a = b) /\ (open k n l -> converts_now P k (log_field n l) a) /\
    (forall m, log_field m l' = log_field m l) /\
    l_ip_fields l' = l_ip_fields l /\
    (forall j m, (j, m) <> (k, n) -> match bt_get m (l_fields l), bt_get m (l_fields l') with
       | None, None => True | Some f, Some f' => kcache j f' = kcache j f | _, _ => False end).

Lemma spec_cached {T} P k n l (c : T -> value) get set cv :
  (forall f, kcache k f = cmap c (get f)) ->
  (forall x f, original (set x f) = original f) ->
  (forall x f, get (set x f) = x) ->
  (forall j x f, j <> k -> kcache j (set x f) = kcache j f) ->
  (forall f, exists r, cv f = Val r) ->
  (forall f r, cv f = Val r -> converts P k f (ok_of c r)) ->
  spec_read P k n l (answer_with c (cached get set cv n l)).
Proof.
  intros Hk Ho Hg Hj Ht Hc. unfold spec_read, cached, settled, open, log_field.
  destruct (bt_get n (l_fields l)) as [f|] eqn:E.
  2:{ exists None, l. unfold answer_with. cbn [obind fst snd option_map]. rewrite E.
      split; [reflexivity|]. split; [reflexivity|]. split; [intros b ->; reflexivity|]. split; [reflexivity|]. split; [reflexivity|]. split; [reflexivity|].
      intros j m _. destruct (bt_get m (l_fields l)); auto. }
  rewrite Hk. destruct (get f) as [| |v] eqn:G.
  - exists None, l. unfold answer_with. cbn [obind fst snd option_map]. rewrite E, Hk, G. cbn [cmap of_cache].
    split; [reflexivity|]. split; [split; [discriminate|reflexivity]|]. split; [intros b [_ B]; exact B|]. split; [discriminate|].
    split; [reflexivity|]. split; [reflexivity|]. intros j m _. destruct (bt_get m (l_fields l)); auto.
  - destruct (Ht (original f)) as [r R]. rewrite R. unfold answer_with. cbn [obind fst snd].
    set (x := match r with Ok v => CSome v | Err _ => CInvalid end).
    exists (ok_of c r), (mkLog (l_tags l) (bt_insert n (set x f) (l_fields l)) (l_ip_fields l)).
    split; [destruct r; reflexivity|]. cbn [l_fields l_ip_fields]. rewrite bt_get_insert_eq, Hk, Hg.
    split; [unfold x; destruct r; split; (discriminate || reflexivity)|].
    split; [intros b [B _]; exfalso; apply B; reflexivity|]. split; [intros _; apply Hc; exact R|].
    split; [|split; [reflexivity|]].
    + intros m. rewrite bt_get_insert. destruct (keqb_spec m n) as [->|]; [|reflexivity]. rewrite E. cbn [option_map]. rewrite Ho. reflexivity.
    + intros j m D. rewrite bt_get_insert. destruct (keqb_spec m n) as [->|M].
      * rewrite E. apply Hj. congruence.
      * destruct (bt_get m (l_fields l)); auto.
  - exists (Some (c v)), l. unfold answer_with. cbn [obind fst snd option_map]. rewrite E, Hk, G. cbn [cmap of_cache].
    split; [reflexivity|]. split; [split; [discriminate|reflexivity]|]. split; [intros b [_ B]; exact B|]. split; [discriminate|].
    split; [reflexivity|]. split; [reflexivity|]. intros j m _. destruct (bt_get m (l_fields l)); auto.
Qed.

Lemma read_spec P k n l : spec_read P k n l (typed_read P k n l).
Proof.
  destruct k; cbn [typed_read]; (apply spec_cached; [reflexivity|reflexivity|reflexivity| | |]);
  try (intros j x f D; destruct j; try reflexivity; congruence);
  try (intros f; eexists; reflexivity); try (intros f r [= <-]; constructor).
  - apply to_ip_val.
  - intros f r E. apply Cv_ip; exact E.
Qed.
Lemma read_step P k n l a l' : typed_read P k n l = Val (a, l') -> edit_step P (ECall (ORead k n)) l = Val l'.
Proof.
  cbn [edit_step step]. destruct k; cbn [typed_read]; unfold answer_with, forget;
  match goal with |- obind ?o _ = _ -> _ => destruct o as [[x y]| |]; cbn [obind fst snd]; congruence end.
Qed.

(** ** What the other steps do *)
Definition caches_kept (k : read_kind) (n : string) (l l' : log) : Prop :=
  match bt_get n (l_fields l), bt_get n (l_fields l') with None, None => True | Some f, Some f' => kcache k f' = kcache k f | _, _ => False end.
Lemma kept_settled k n a l l' : caches_kept k n l l' -> settled k n a l -> settled k n a l'.
Proof. unfold caches_kept, settled. destruct (bt_get n (l_fields l)), (bt_get n (l_fields l')); try tauto. intros ->. tauto. Qed.
Lemma kept_open k n l l' : caches_kept k n l l' -> open k n l -> open k n l'.
Proof. unfold caches_kept, open. destruct (bt_get n (l_fields l)), (bt_get n (l_fields l')); try tauto. intros ->. tauto. Qed.
Lemma kept_refl k n l : caches_kept k n l l.
Proof. unfold caches_kept. destruct (bt_get n (l_fields l)); auto. Qed.
Lemma kept_insert k n m v l l' : m <> n -> l_fields l' = bt_insert m v (l_fields l) -> caches_kept k n l l'.
Proof. intros D E. unfold caches_kept. rewrite E, bt_get_insert_ne by congruence. destruct (bt_get n (l_fields l)); auto. Qed.
Lemma get_map (g : string -> field -> field) n (l : bt string ifield) :
  bt_get n (map (fun p => let f := snd p in (fst p, mkI (g (fst p) (original f)) (c_array f) (c_text f) (c_u64 f) (c_i64 f) (c_f64 f) (c_ip f))) l) =
  option_map (fun f => mkI (g n (original f)) (c_array f) (c_text f) (c_u64 f) (c_i64 f) (c_f64 f) (c_ip f)) (bt_get n l).
Proof.
  induction l as [|[m f] l IH]; [reflexivity|]. cbn [map bt_get fst snd]. destruct (keqb_spec n m) as [->|]; [reflexivity|exact IH].
Qed.

Lemma quiet_step P k n e l : ~ writes n e -> e <> ECall (ORead k n) -> exists l', edit_step P e l = Val l' /\ caches_kept k n l l'.
Proof.
  intros W R. destruct e as [o|m v|g|s]; cbn [edit_step].
  - destruct o as [m v|h s|z|t|j m]; cbn [step]; cbn [writes] in W.
    + eexists; split; [reflexivity|]. eapply kept_insert; [exact W|reflexivity].
    + eexists; split; [reflexivity|]. rewrite header_set_put. eapply kept_insert; [exact W|reflexivity].
    + eexists; split; [reflexivity|]. eapply kept_insert; [exact W|reflexivity].
    + eexists; split; [reflexivity|]. eapply kept_insert; [exact W|reflexivity].
    + destruct (read_spec P j m l) as (a & l' & E & _ & _ & _ & _ & _ & K). exists l'. split; [apply (read_step P j m l a l' E)|].
      unfold caches_kept. apply K. congruence.
  - eexists; split; [reflexivity|]. unfold field_mut_set. destruct (bt_get m (l_fields l)) as [f|] eqn:G; [|apply kept_refl].
    unfold caches_kept. cbn [l_fields]. rewrite bt_get_insert. destruct (keqb_spec n m) as [->|].
    + rewrite G. destruct k; reflexivity.
    + destruct (bt_get n (l_fields l)); auto.
  - eexists; split; [reflexivity|]. unfold caches_kept, iter_mut_map. cbn [l_fields]. rewrite get_map.
    destruct (bt_get n (l_fields l)); cbn [option_map]; [destruct k; reflexivity|exact I].
  - eexists; split; [reflexivity|]. unfold caches_kept. rewrite apply_get.
    assert (D : bt_has n (s_fields s) = true) by (apply has_declared; intros E; apply W; exact E). rewrite D.
    destruct (bt_get n (l_fields l)); auto.
Qed.
Lemma any_step P e l : exists l', edit_step P e l = Val l'.
Proof.
  destruct e as [o|m v|g|s]; cbn [edit_step]; try (eexists; reflexivity). destruct o as [m v|h s|z|t|j m]; cbn [step]; try (eexists; reflexivity).
  destruct (read_spec P j m l) as (a & l' & E & _). exists l'. apply (read_step P j m l a l' E).
Qed.
Lemma edits_total P h l : exists l', edits P h l = Val l'.
Proof. revert l; induction h as [|e h IH]; intros l; cbn [edits]; [eauto|]. destruct (any_step P e l) as [l' ->]. cbn [obind]. apply IH. Qed.
Lemma edits_app P h1 h2 l : edits P (h1 ++ h2) l = obind (edits P h1 l) (edits P h2).
Proof. revert l; induction h1 as [|e h IH]; intros l; cbn [app edits obind]; [reflexivity|]. destruct (edit_step P e l); cbn [obind]; auto. Qed.

Lemma ifield_kind P k v : match kcache k (ifield_of v) with CNone => ~ of_kind k v | c => of_kind k v /\ converts P k v (of_cache c) end.
Proof.
  destruct k, v; cbn; try (intros F; inversion F; fail); (split; [constructor|]).
  - apply (Cv_i64 P (I64 _)).
  - apply (Cv_i64 P (Date _)).
  - apply (Cv_u64 P (U64 _)).
  - apply (Cv_f64 P (F64 _)).
  - apply (Cv_ip P (IP _) (Ok _)). reflexivity.
Qed.
(** After a write the field is as freshly stored, or gone. *)
Lemma write_step P n e l l' : writes n e -> edit_step P e l = Val l' ->
  bt_get n (l_fields l') = None \/ exists v, bt_get n (l_fields l') = Some (ifield_of v).
Proof.
  intros W. destruct e as [o|m v|g|s]; cbn [writes] in W; try contradiction.
  - destruct o as [m v|h s|z|t|j m]; try contradiction; subst n; cbn [edit_step step]; intros [= <-]; right.
    + exists v. unfold log_insert. cbn [l_fields]. apply bt_get_insert_eq.
    + exists (Text s). rewrite header_set_put. unfold put. cbn [l_fields]. apply bt_get_insert_eq.
    + exists (I64 z). unfold set_event_created, put. cbn [l_fields]. apply bt_get_insert_eq.
    + eexists. unfold add_tag. cbn [l_fields]. apply bt_get_insert_eq.
  - cbn [edit_step]. intros [= <-]. left. rewrite apply_get. unfold bt_has, get_field in *. rewrite W. reflexivity.
Qed.
Definition stored (n : string) (l : log) : Prop := bt_get n (l_fields l) = None \/ exists v, bt_get n (l_fields l) = Some (ifield_of v).
Lemma stored_kind P k n l : stored n l -> (exists v a, log_field n l = Some v /\ of_kind k v /\ converts P k v a /\ settled k n a l) \/
  ((forall v, log_field n l = Some v -> ~ of_kind k v) /\ open k n l).
Proof.
  intros [E|[v E]]; unfold settled, open, log_field; rewrite E; cbn [option_map]; [right; split; [discriminate|exact I]|].
  pose proof (ifield_kind P k v) as K. destruct (kcache k (ifield_of v)) eqn:C.
  - left. exists v, None. destruct K as [K1 K2]. splits; auto. discriminate.
  - right. split; [|reflexivity]. intros w [= <-]. exact K.
  - left. exists v, (Some v0). destruct K as [K1 K2]. splits; auto. discriminate.
Qed.
Lemma stored_settled P k n l v a : stored n l -> log_field n l = Some v -> of_kind k v -> converts P k v a -> settled k n a l.
Proof.
  intros S E K C. destruct (stored_kind P k n l S) as [(w & b & Ew & Kw & Cw & Sb)|[N _]]; [|exfalso; exact (N v E K)].
  rewrite E in Ew. injection Ew as <-. rewrite (converts_fun _ _ _ _ _ C Cw). exact Sb.
Qed.
Lemma stored_open (P : printers) k n l : stored n l -> (forall v, log_field n l = Some v -> ~ of_kind k v) -> open k n l.
Proof. intros S N. destruct (stored_kind P k n l S) as [(w & b & Ew & Kw & _)|[_ O]]; [exfalso; exact (N w Ew Kw)|exact O]. Qed.
Lemma stored_new n m r o : stored n (log_new m r o).
Proof.
  unfold stored, log_new, put. cbn [l_fields l_tags l_ip_fields]. rewrite !bt_get_insert.
  destruct (keqb n "event.received"); [right; eauto|]. destruct (keqb n "event.created"); [right; eauto|].
  destruct (keqb n "origin"); [right; eauto|]. destruct (keqb n "message"); [right; eauto|]. left; reflexivity.
Qed.

Lemma read_eq_dec k n e : {e = ECall (ORead k n)} + {e <> ECall (ORead k n)}.
Proof.
  destruct e as [[| | | |j m]| | |]; try (right; discriminate).
  destruct (string_dec m n) as [->|D]; [|right; congruence].
  destruct j, k; try (left; reflexivity); right; discriminate.
Qed.
(** Settled answers stay while nothing is written. *)
Lemma settled_stays P k n a h l l' : unwritten n h -> settled k n a l -> edits P h l = Val l' -> settled k n a l'.
Proof.
  intros U. revert l; induction U as [|e h W U IH]; intros l S; cbn [edits]; [intros [= <-]; exact S|].
  destruct (read_eq_dec k n e) as [->|D].
  - destruct (read_spec P k n l) as (b & l1 & E & S1 & B & _). rewrite (read_step P k n l b l1 E). cbn [obind].
    apply IH. rewrite <- (B a S). exact S1.
  - destruct (quiet_step P k n e l W D) as (l1 & -> & K). cbn [obind]. apply IH. exact (kept_settled _ _ _ _ _ K S).
Qed.
Lemma open_stays P k n h l l' : unwritten n h -> ~ In (ECall (ORead k n)) h -> open k n l -> edits P h l = Val l' -> open k n l'.
Proof.
  intros U. revert l; induction U as [|e h W U IH]; intros l R S; cbn [edits]; [intros [= <-]; exact S|].
  destruct (quiet_step P k n e l W) as (l1 & -> & K); [intros ->; apply R; left; reflexivity|]. cbn [obind].
  apply IH; [intros I; apply R; right; exact I|]. exact (kept_open _ _ _ _ K S).
Qed.
Lemma converts_now_fun P k f a b : converts_now P k f a -> converts_now P k f b -> a = b.
Proof. destruct f; cbn [converts_now]; [apply converts_fun|congruence]. Qed.
Lemma converts_now_total P k f : exists a, converts_now P k f a.
Proof. destruct f; cbn [converts_now]; [apply converts_total|eauto]. Qed.

(** The state a history leaves, read off the specification. *)
Definition holds (P : printers) (k : read_kind) (n : string) (a : option value) (l : log) : Prop :=
  settled k n a l \/ (open k n l /\ converts_now P k (log_field n l) a).
Lemma holds_read P k n a l : holds P k n a l -> exists l', typed_read P k n l = Val (a, l') /\ settled k n a l' /\ (forall m, log_field m l' = log_field m l).
Proof.
  intros H. destruct (read_spec P k n l) as (b & l' & E & S & B & O & F & _). exists l'.
  assert (X : b = a) by (destruct H as [H|[H1 H2]]; [exact (B a H)|exact (converts_now_fun _ _ _ _ _ (O H1) H2)]). rewrite <- X. auto.
Qed.

Lemma stands_holds P m r o k n h a : stands P (log_new m r o) k n h a -> forall l, edits P h (log_new m r o) = Val l -> holds P k n a l.
Proof.
  intros S. induction S as [h w l1 v a h2 W E F K C U|v a h F K C U|h a h2 S IH U|h w l1 h2 l' a W E N U R E' C|h l' a N U R E' C]; intros l L.
  - left. change (w :: h2) with ([w] ++ h2)%list in L. rewrite app_assoc, edits_app, E in L. cbn [obind] in L.
    refine (settled_stays _ _ _ _ _ _ _ U _ L). rewrite edits_app in E. destruct (edits P h _) as [l2| |]; [|discriminate|discriminate]. cbn [obind edits] in E.
    destruct (edit_step P w l2) as [l3| |] eqn:E3; [|discriminate|discriminate]. cbn [obind] in E. injection E as <-.
    apply (stored_settled P k n _ v a (write_step P n w l2 _ W E3) F K C).
  - left. refine (settled_stays _ _ _ _ _ _ _ U _ L). apply (stored_settled P k n _ v a (stored_new n m r o) F K C).
  - left. rewrite edits_app in L. destruct (edits P h _) as [l2| |] eqn:E2; [|discriminate|discriminate]. cbn [obind edits] in L.
    destruct (holds_read P k n a l2 (IH l2 eq_refl)) as (l3 & R & S3 & _). rewrite (read_step _ _ _ _ _ _ R) in L. cbn [obind] in L.
    exact (settled_stays _ _ _ _ _ _ _ U S3 L).
  - right. rewrite L in E'. injection E' as <-. split; [|exact C].
    change (w :: h2) with ([w] ++ h2)%list in L. rewrite app_assoc, edits_app, E in L. cbn [obind] in L.
    refine (open_stays _ _ _ _ _ _ U R _ L). rewrite edits_app in E. destruct (edits P h _) as [l2| |]; [|discriminate|discriminate]. cbn [obind edits] in E.
    destruct (edit_step P w l2) as [l3| |] eqn:E3; [|discriminate|discriminate]. cbn [obind] in E. injection E as <-.
    apply (stored_open P k n _ (write_step P n w l2 _ W E3) N).
  - right. rewrite L in E'. injection E' as <-. split; [|exact C]. apply (open_stays _ _ _ _ _ _ U R (stored_open P k n _ (stored_new n m r o) N) L).
Qed.

Lemma writes_dec n e : {writes n e} + {~ writes n e}.
Proof.
  destruct e as [[m v|h s|z|t|j m]|m v|g|s]; cbn [writes]; try apply string_dec; try (right; tauto).
  destruct (get_field n s); [right; discriminate|left; reflexivity].
Qed.
(** Every history is told by one of the cases. *)
Lemma unwritten_app n h1 h2 : unwritten n h1 -> unwritten n h2 -> unwritten n (h1 ++ h2).
Proof. intros A B. apply Forall_app. auto. Qed.
Lemma stands_total P m r o k n h : exists a, stands P (log_new m r o) k n h a.
Proof.
  induction h as [|e h IH] using rev_ind.
  - destruct (stored_kind P k n _ (stored_new n m r o)) as [(v & a & F & K & C & _)|[N _]].
    + exists a. eapply St_fresh; eauto. constructor.
    + destruct (converts_now_total P k (log_field n (log_new m r o))) as [a A]. exists a. apply (St_first _ _ _ _ [] (log_new m r o) a N); [constructor|intros []|reflexivity|exact A].
  - destruct (writes_dec n e) as [W|W].
    + destruct (edits_total P h (log_new m r o)) as [l1 L1]. destruct (any_step P e l1) as [l2 L2].
      assert (L : edits P (h ++ [e]) (log_new m r o) = Val l2) by (rewrite edits_app, L1; cbn [obind edits]; rewrite L2; reflexivity).
      destruct (stored_kind P k n l2 (write_step P n e l1 l2 W L2)) as [(v & a & F & K & C & _)|[N _]].
      * exists a. eapply St_written; eauto. constructor.
      * destruct (converts_now_total P k (log_field n l2)) as [a A]. exists a. apply (St_now P _ k n h e l2 [] l2 a W L N); [constructor|intros []|exact L|exact A].
    + assert (WE : unwritten n [e]) by (constructor; [exact W|constructor]).
      destruct (read_eq_dec k n e) as [->|D].
      * destruct IH as [a S]. exists a. apply St_read; [exact S|constructor].
      * destruct (edits_total P (h ++ [e]) (log_new m r o)) as [l' L'].
        destruct IH as [a S]. destruct S as [h w l1 v a h2 W' E F K C U|v a h F K C U|h a h2 S U|h w l1 h2 l2 a W' E N U R E' C|h l2 a N U R E' C].
        -- exists a. rewrite <- app_assoc. cbn [app]. eapply St_written; eauto using unwritten_app.
        -- exists a. eapply St_fresh; eauto using unwritten_app.
        -- exists a. rewrite <- app_assoc. cbn [app]. apply St_read; auto using unwritten_app.
        -- destruct (converts_now_total P k (log_field n l')) as [b B]. exists b. rewrite <- app_assoc in *. cbn [app] in *.
           eapply St_now; eauto using unwritten_app. intros I. apply in_app_or in I as [I|[I|[]]]; [exact (R I)|exact (D I)].
        -- destruct (converts_now_total P k (log_field n l')) as [b B]. exists b.
           eapply St_first; eauto using unwritten_app. intros I. apply in_app_or in I as [I|[I|[]]]; [exact (R I)|exact (D I)].
Qed.

(** ** The IP fields *)
Definition ips_of (h : list edit) (n : string) : Prop := exists a, In (ECall (OInsert n (IP a))) h.
Lemma step_ips P e l l' : edit_step P e l = Val l' -> bt_wf (l_ip_fields l) ->
  bt_wf (l_ip_fields l') /\ forall n, In n (bset_elems (l_ip_fields l')) <-> In n (bset_elems (l_ip_fields l)) \/ ips_of [e] n.
Proof.
  intros E Wf.
  assert (Same : l_ip_fields l' = l_ip_fields l -> (forall n a, e <> ECall (OInsert n (IP a))) ->
    bt_wf (l_ip_fields l') /\ forall n, In n (bset_elems (l_ip_fields l')) <-> In n (bset_elems (l_ip_fields l)) \/ ips_of [e] n).
  { intros -> D. split; [exact Wf|]. intros n. split; [auto|]. intros [I|(a & [I|[]])]; [exact I|]. exfalso. exact (D n a I). }
  destruct e as [[m v|h s|z|t|j m]|m v|g|s]; cbn [edit_step] in E.
  - cbn [step] in E. injection E as <-. unfold log_insert. cbn [l_ip_fields].
    destruct (match v with IP _ => true | _ => false end) eqn:V.
    + destruct v; try discriminate. split; [apply wf_insert; exact Wf|]. intros n. rewrite elems_add. split.
      * intros [->|I]; [right; eexists; left; reflexivity|left; exact I].
      * intros [I|(b & [I|[]])]; [right; exact I|left]. injection I as <- _. reflexivity.
    + apply Same; [destruct v; (discriminate || reflexivity)|]. intros n a [= -> ->]. discriminate.
  - cbn [step] in E. injection E as <-. apply Same; [rewrite header_set_put; reflexivity|discriminate].
  - cbn [step] in E. injection E as <-. apply Same; [reflexivity|discriminate].
  - cbn [step] in E. injection E as <-. apply Same; [reflexivity|discriminate].
  - destruct (read_spec P j m l) as (a & l1 & R & _ & _ & _ & _ & I & _). pose proof (read_step _ _ _ _ _ _ R) as R'. cbn [edit_step] in R'. rewrite E in R'.
    injection R' as ->. apply Same; [exact I|discriminate].
  - injection E as <-. apply Same; [unfold field_mut_set; destruct (bt_get m (l_fields l)); reflexivity|discriminate].
  - injection E as <-. apply Same; [reflexivity|discriminate].
  - injection E as <-. apply Same; [reflexivity|discriminate].
Qed.

Lemma edits_ips P m r o h l : edits P h (log_new m r o) = Val l ->
  bt_wf (l_ip_fields l) /\ forall n, In n (bset_elems (l_ip_fields l)) <-> ips_of h n.
Proof.
  revert l; induction h as [|e h IH] using rev_ind; intros l.
  - intros [= <-]. split; [constructor|]. intros n. split; [intros []|intros (a & [])].
  - rewrite edits_app. destruct (edits P h _) as [l1| |]; try discriminate. cbn [obind edits].
    destruct (edit_step P e l1) as [l2| |] eqn:E; try discriminate. cbn [obind]. intros [= <-].
    destruct (IH l1 eq_refl) as [Wf I]. destruct (step_ips P e l1 l2 E Wf) as [Wf2 I2]. split; [exact Wf2|]. intros n. rewrite I2, I. unfold ips_of. split.
    + intros [(a & A)|(a & A)]; exists a; apply in_or_app; auto.
    + intros (a & A). apply in_app_or in A as [A|A]; [left|right]; exists a; exact A.
Qed.
Lemma ip_iter_prefix names (fs : bt string ifield) : exists rest, names = (map fst (ip_iter names fs) ++ rest)%list /\
  (forall n v, In (n, v) (ip_iter names fs) -> option_map original (bt_get n fs) = Some v) /\
  (forall n r, rest = n :: r -> bt_get n fs = None).
Proof.
  induction names as [|n names (rest & E & A & B)]; cbn [ip_iter].
  - exists []. split; [reflexivity|]. split; [intros n v []|discriminate].
  - destruct (bt_get n fs) as [f|] eqn:G.
    + exists rest. cbn [map app fst]. split; [f_equal; exact E|]. split; [|exact B]. intros m v [[= <- <-]|I]; [rewrite G; reflexivity|exact (A m v I)].
    + exists (n :: names). split; [reflexivity|]. split; [intros m v []|]. intros m r [= <- _]. exact G.
Qed.
