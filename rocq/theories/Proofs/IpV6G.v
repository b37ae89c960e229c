(** [ipv6_from_str]: totality and exact language. *)
From Coq Require Import String Ascii List Bool.
From Verif Require Import Base.Arith Base.Str Base.Outcome Spec.TextSpec Proofs.TextP Model.IpUtils Proofs.IpV6P.
Import ListNotations.
Local Open Scope string_scope.
Local Open Scope N_scope.

Notation grp := (sep_by ":"%char).

Lemma sep_by_cons c x r : r <> [] -> sep_by c (x :: r) = x ++ String c (sep_by c r).
Proof. destruct r; [congruence|reflexivity]. Qed.

Lemma F2len {A B} (R : A -> B -> Prop) l m : Forall2 R l m -> length l = length m.
Proof. induction 1; simpl; congruence. Qed.

(** ** Building scans *)
Lemma scan_cont e gs ws vs r e' vs' :
  Forall2 group_text gs ws -> gs <> [] -> (length vs + length gs <= 7)%nat ->
  scan e (vs ++ ws) r e' vs' -> scan e vs (bytes_of (grp gs) ++ ":"%char :: r) e' vs'.
Proof.
  intros H. revert vs. induction H as [|g w gs ws Hg Hf IH]; intros vs Hne Hl Hs; [congruence|].
  destruct gs as [|g2 gs].
  - inversion Hf; subst. cbn [sep_by]. eapply scan_more; [exact Hg|simpl in Hl; lia|exact Hs].
  - rewrite sep_by_cons by discriminate. rewrite bytes_app, <- app_assoc. cbn [list_ascii_of_string app].
    eapply scan_more; [exact Hg|simpl in Hl; lia|].
    apply IH; [discriminate|rewrite app_length; simpl in *; lia|].
    rewrite <- app_assoc. exact Hs.
Qed.

Lemma scan_plain e gs ws vs :
  Forall2 group_text gs ws -> (length vs + length gs <= 8)%nat -> scan e vs (bytes_of (grp gs)) e (vs ++ ws).
Proof.
  intros H. revert vs. induction H as [|g w gs ws Hg Hf IH]; intros vs Hl.
  - rewrite app_nil_r. constructor.
  - destruct gs as [|g2 gs].
    + inversion Hf; subst. cbn [sep_by]. apply scan_last; [exact Hg|simpl in Hl; lia].
    + rewrite sep_by_cons by discriminate. rewrite bytes_app. cbn [list_ascii_of_string].
      eapply scan_more; [exact Hg|simpl in Hl; lia|].
      replace (vs ++ w :: ws)%list with ((vs ++ [w]) ++ ws)%list by (rewrite <- app_assoc; reflexivity).
      apply IH. rewrite app_length; simpl in *; lia.
Qed.

(** ** Inverting scans *)
Definition plain (vs : list N) (r : list ascii) (vs' : list N) : Prop :=
  exists gs ws, Forall2 group_text gs ws /\ vs' = (vs ++ ws)%list /\
    ((r = bytes_of (grp gs) /\ (length vs + length gs <= 8 \/ gs = []))%nat \/
     (gs <> [] /\ r = bytes_of (grp gs ++ ":") /\ (length vs + length gs <= 7)%nat)).

Definition with_ell (vs : list N) (r : list ascii) (e' : option nat) (vs' : list N) : Prop :=
  exists gs ws r2, Forall2 group_text gs ws /\
    ((gs = [] /\ r = ":"%char :: r2) \/
     (gs <> [] /\ r = (bytes_of (grp gs) ++ ":"%char :: ":"%char :: r2)%list /\ (length vs + length gs <= 7)%nat)) /\
    scan (Some (length vs + length gs)%nat) (vs ++ ws) r2 e' vs'.

Lemma scan_inv e vs r e' vs' : scan e vs r e' vs' ->
  (e' = e /\ plain vs r vs') \/ (e = None /\ with_ell vs r e' vs').
Proof.
  induction 1 as [e vs|vs r e' vs' Hs IH|e vs g v Hg Hl|e vs g v r e' vs' Hg Hl Hs IH].
  - left. split; [reflexivity|]. exists [], []. rewrite app_nil_r. splits; [constructor|reflexivity|]. left; auto.
  - right. split; [reflexivity|]. exists [], [], r. splits; [constructor|left; auto|].
    rewrite app_nil_r, Nat.add_0_r. exact Hs.
  - left. split; [reflexivity|]. exists [g], [v]. splits; [constructor; [exact Hg|constructor]|reflexivity|].
    left. split; [reflexivity|left; simpl; lia].
  - destruct IH as [[-> (gs & ws & Hf & -> & Hr)]|[-> (gs & ws & r2 & Hf & Hr & Hs2)]].
    + left. split; [reflexivity|]. exists (g :: gs), (v :: ws).
      splits; [constructor; auto|rewrite <- app_assoc; reflexivity|].
      rewrite app_length in Hr. cbn [length] in Hr.
      destruct Hr as [[-> Hl2]|(Hne & -> & Hl2)].
      * destruct gs as [|g2 gs].
        -- right. splits; [discriminate|cbn [sep_by]; rewrite bytes_app; reflexivity|simpl; lia].
        -- left. rewrite (sep_by_cons _ g) by discriminate. rewrite bytes_app. split; [reflexivity|].
           left. destruct Hl2 as [Hl2|]; [|discriminate]. simpl in *; lia.
      * right. splits; [discriminate| |simpl in *; lia].
        rewrite (sep_by_cons _ g) by exact Hne. rewrite str_app_assoc, !bytes_app. cbn [append list_ascii_of_string]. reflexivity.
    + right. split; [reflexivity|]. exists (g :: gs), (v :: ws), r2.
      splits; [constructor; auto| |].
      * right. rewrite app_length in Hr. cbn [length] in Hr. destruct Hr as [[-> ->]|(Hne & -> & Hl2)].
        -- splits; [discriminate|reflexivity|simpl; lia].
        -- splits; [discriminate| |simpl in *; lia].
           rewrite (sep_by_cons _ g) by exact Hne. rewrite bytes_app, <- app_assoc. reflexivity.
      * rewrite app_length, <- app_assoc in Hs2. cbn [length app] in Hs2 |- *.
        replace (length vs + S (length gs))%nat with (length vs + 1 + length gs)%nat by lia. exact Hs2.
Qed.

(** ** After the loop *)
Lemma finish_none b vs : length vs = 8%nat ->
  v6_finish b (stt (length b) None vs) = Val (Ok (be_value 65536 vs)).
Proof.
  intros H. unfold v6_finish, stt; cbn [v6_off v6_idx v6_ell v6_addr].
  rewrite Nat.ltb_irrefl, H. cbn [Nat.eqb andb Nat.ltb Nat.leb]. 
  replace (8 - 8)%nat with 0%nat by lia. cbn [repeat obind]. rewrite app_nil_r.
  rewrite (v6_sum_spec _ H). reflexivity.
Qed.

Lemma finish_none_short b vs : (length vs < 8)%nat -> v6_finish b (stt (length b) None vs) = Val (Err "Error").
Proof.
  intros H. unfold v6_finish, stt; cbn [v6_off v6_idx v6_ell v6_addr].
  rewrite Nat.ltb_irrefl, andb_false_r. replace (Nat.ltb (length vs) 8) with true by (symmetry; apply Nat.ltb_lt; lia).
  reflexivity.
Qed.

Lemma finish_some b hi lo : (length hi + length lo <= 7)%nat ->
  v6_finish b (stt (length b) (Some (length hi)) (hi ++ lo)) =
  Val (Ok (be_value 65536 (hi ++ repeat 0 (8 - (length hi + length lo)) ++ lo))).
Proof.
  intros H. unfold v6_finish, stt; cbn [v6_off v6_idx v6_ell v6_addr].
  rewrite Nat.ltb_irrefl. rewrite app_length.
  replace (Nat.eqb (length hi + length lo) 8) with false by (symmetry; apply Nat.eqb_neq; lia).
  replace (Nat.ltb (length hi + length lo) 8) with true by (symmetry; apply Nat.ltb_lt; lia).
  cbn [andb].
  replace (length hi + length lo - length hi)%nat with (length lo) by lia.
  rewrite <- app_assoc.
  pose proof (shift_groups_spec hi lo (8 - (length hi + length lo))%nat [] ltac:(lia)) as S.
  rewrite !app_nil_r in S. rewrite S. cbn [obind].
  rewrite v6_sum_spec by (rewrite !app_length, repeat_length; lia). reflexivity.
Qed.

Lemma finish_some_full b k vs : length vs = 8%nat -> v6_finish b (stt (length b) (Some k) vs) = Val (Err "Empty elipsis").
Proof.
  intros H. unfold v6_finish, stt; cbn [v6_off v6_idx v6_ell v6_addr].
  rewrite Nat.ltb_irrefl, H. reflexivity.
Qed.

Lemma finish_trailing b st : (v6_off st < length b)%nat -> v6_finish b st = Val (Err "There are trailing characters").
Proof. intros H. unfold v6_finish. replace (Nat.ltb (v6_off st) (length b)) with true by (symmetry; apply Nat.ltb_lt; lia). reflexivity. Qed.

(** ** Running from a start state *)
Definition run_from (b : list ascii) (off : nat) (ell : option nat) : outcome (result N string) :=
  let! e := v6_loop (S (length b)) b {| v6_off := off; v6_ell := ell; v6_addr := repeat 0 8; v6_idx := 0 |} in
  match e with Fail m => Val (Err m) | Exit st => v6_finish b st end.

Lemma run_from_total pre r ell : ell_ok ell [] ->
  exists res, run_from (pre ++ r) (length pre) ell = Val res /\ (forall v, res = Ok v -> v < 2 ^ 128).
Proof.
  intros He. unfold run_from.
  change {| v6_off := length pre; v6_ell := ell; v6_addr := repeat 0 8; v6_idx := 0 |} with (stt (length pre) ell []).
  destruct (loop_scan (S (length (pre ++ r))) pre r ell []) as [(m & ->)|[(st & -> & Hlt)|(e' & vs' & -> & _ & H8 & Hb & Hk)]].
  - rewrite app_length; lia.
  - left; simpl; lia.
  - simpl; lia.
  - constructor.
  - exact He.
  - cbn [obind]. eexists; split; [reflexivity|discriminate].
  - cbn [obind]. rewrite finish_trailing by exact Hlt. eexists; split; [reflexivity|discriminate].
  - cbn [obind]. destruct (Nat.eq_dec (length vs') 8) as [E|E].
    + destruct e' as [k|].
      * rewrite finish_some_full by exact E. eexists; split; [reflexivity|discriminate].
      * rewrite finish_none by exact E. eexists; split; [reflexivity|]. intros v Hv; inversion Hv; subst.
        pose proof (be65536_bound vs' Hb) as B. rewrite E in B. exact B.
    + destruct e' as [k|].
      * simpl in Hk.
        assert (L1 : length (firstn k vs') = k) by (apply firstn_length_le; exact Hk).
        assert (L2 : (length (firstn k vs') + length (skipn k vs') = length vs')%nat)
          by (rewrite <- app_length, firstn_skipn; reflexivity).
        pose proof (finish_some (pre ++ r) (firstn k vs') (skipn k vs') ltac:(lia)) as F.
        rewrite L1, firstn_skipn in F. rewrite F. eexists; split; [reflexivity|].
        intros v Hv. match type of Hv with Ok ?x = _ => assert (Ev : v = x) by congruence end. rewrite Ev. clear Hv Ev v.
        match goal with |- be_value _ ?l < _ => pose proof (be65536_bound l) as B; assert (L : length l = 8%nat) by (rewrite !app_length, repeat_length; lia) end.
        rewrite L in B. apply B. rewrite <- (firstn_skipn k vs') in Hb. apply Forall_app in Hb as [Hb1 Hb2].
        apply Forall_app; split; [exact Hb1|]. apply Forall_app; split; [|exact Hb2].
        apply Forall_forall. intros x Hx. apply repeat_spec in Hx. subst. reflexivity.
      * rewrite finish_none_short by lia. eexists; split; [reflexivity|discriminate].
Qed.

Lemma run_from_iff pre r ell v : ell_ok ell [] ->
  run_from (pre ++ r) (length pre) ell = Val (Ok v) <->
  exists e' vs', scan ell [] r e' vs' /\
   ((e' = None /\ length vs' = 8%nat /\ v = be_value 65536 vs') \/
    (exists hi lo, e' = Some (length hi) /\ vs' = (hi ++ lo)%list /\ (length hi + length lo <= 7)%nat /\
       v = be_value 65536 (hi ++ repeat 0 (8 - (length hi + length lo)) ++ lo))).
Proof.
  intros He. unfold run_from.
  change {| v6_off := length pre; v6_ell := ell; v6_addr := repeat 0 8; v6_idx := 0 |} with (stt (length pre) ell []).
  split.
  - destruct (loop_scan (S (length (pre ++ r))) pre r ell []) as [(m & ->)|[(st & -> & Hlt)|(e' & vs' & -> & Hs & H8 & Hb & Hk)]].
    + rewrite app_length; lia.
    + left; simpl; lia.
    + simpl; lia.
    + constructor.
    + exact He.
    + discriminate.
    + cbn [obind]. rewrite finish_trailing by exact Hlt. discriminate.
    + cbn [obind]. intros H. exists e', vs'. split; [exact Hs|].
      destruct (Nat.eq_dec (length vs') 8) as [E|E].
      * destruct e' as [k|].
        -- rewrite finish_some_full in H by exact E. discriminate.
        -- rewrite finish_none in H by exact E. left. inversion H; auto.
      * destruct e' as [k|].
        -- simpl in Hk. assert (L1 : length (firstn k vs') = k) by (apply firstn_length_le; exact Hk).
           assert (L2 : (length (firstn k vs') + length (skipn k vs') = length vs')%nat)
             by (rewrite <- app_length, firstn_skipn; reflexivity).
           right. exists (firstn k vs'), (skipn k vs').
           splits; [congruence|symmetry; apply firstn_skipn|lia|].
           pose proof (finish_some (pre ++ r) (firstn k vs') (skipn k vs') ltac:(lia)) as F.
           rewrite L1, firstn_skipn in F. rewrite F in H. rewrite L1. congruence.
        -- rewrite finish_none_short in H by lia. discriminate.
  - intros (e' & vs' & Hs & Hd).
    rewrite (scan_loop _ _ _ _ _ Hs pre (S (length (pre ++ r)))); [|left; simpl; lia|rewrite app_length; lia].
    cbn [obind]. destruct Hd as [(-> & H8 & ->)|(hi & lo & -> & -> & Hl & ->)].
    + apply finish_none; exact H8.
    + apply finish_some; exact Hl.
Qed.

Lemma ipv6_from_bytes_cases b :
  ipv6_from_bytes b =
  if Nat.ltb 38 (length b) || Nat.ltb (length b) 2 then Val (Err "Invalid ipv6 size")
  else match b with
       | ":"%char :: ":"%char :: [] => Val (Ok 0)
       | ":"%char :: ":"%char :: _ => run_from b 2 (Some 0%nat)
       | ":"%char :: _ => Val (Err "An IPv6 cannot start with a single column.")
       | _ => run_from b 0 None
       end.
Proof.
  unfold ipv6_from_bytes. destruct (Nat.ltb 38 (length b) || Nat.ltb (length b) 2) eqn:E; [reflexivity|].
  destruct b as [|a [|c r]]; try discriminate E.
  cbn [nth_error].
  destruct (Ascii.eqb_spec a ":"%char) as [->|Ha].
  - destruct (Ascii.eqb_spec c ":"%char) as [->|Hc].
    + destruct r; reflexivity.
    + destruct c as [[] [] [] [] [] [] [] []]; try reflexivity; exfalso; apply Hc; reflexivity.
  - destruct a as [[] [] [] [] [] [] [] []]; try reflexivity; exfalso; apply Ha; reflexivity.
Qed.

Lemma ipv6_total s : exists r, ipv6_from_str s = Val r /\ (forall v, r = Ok v -> v < 2 ^ 128).
Proof.
  unfold ipv6_from_str. generalize (bytes_of s) as b. intros b.
  rewrite ipv6_from_bytes_cases.
  destruct (Nat.ltb 38 (length b) || Nat.ltb (length b) 2) eqn:E; [eexists; split; [reflexivity|discriminate]|].
  destruct b as [|a b]; [discriminate E|].
  destruct (Ascii.eqb_spec a ":"%char) as [->|Ha].
  - destruct b as [|c b]; [discriminate E|].
    destruct (Ascii.eqb_spec c ":"%char) as [->|Hc].
    + destruct b as [|d b].
      * eexists; split; [reflexivity|]. intros v Hv; inversion Hv; subst; reflexivity.
      * apply (run_from_total [":"%char; ":"%char] (d :: b) (Some 0%nat)). simpl; lia.
    + destruct c as [[] [] [] [] [] [] [] []]; try (eexists; split; [reflexivity|discriminate]); exfalso; apply Hc; reflexivity.
  - pose proof (run_from_total [] (a :: b) None I) as H. cbn [app length] in H.
    destruct a as [[] [] [] [] [] [] [] []]; try exact H; exfalso; apply Ha; reflexivity.
Qed.

(** ** The accepted language *)
Lemma group_no_colon_head g v a r : group_text g v -> bytes_of g = a :: r -> a <> ":"%char.
Proof.
  intros H E ->. destruct (group_head _ _ H) as (x & t & -> & Hx). cbn in E. inversion E; subst. discriminate Hx.
Qed.

Lemma grp_nil_or_head gs ws : Forall2 group_text gs ws -> gs <> [] ->
  exists a r, bytes_of (grp gs) = a :: r /\ a <> ":"%char /\ is_hexdigit a = true.
Proof.
  intros H Hne. destruct H as [|g w gs ws Hg Hf]; [congruence|].
  destruct (group_head _ _ Hg) as (a & t & -> & Ha). exists a.
  assert (a <> ":"%char) by (intros ->; discriminate Ha).
  destruct gs; eexists; splits; try reflexivity; assumption.
Qed.

Definition v6_trailing (s : string) (v : N) : Prop :=
  exists s' lo, lo <> [] /\ s = s' ++ ":" /\ v6_compressed s' lo v.

Lemma bytes_eq_string s t : bytes_of s = t -> s = string_of_list_ascii t.
Proof. intros <-. symmetry; apply string_of_list_ascii_of_string. Qed.

Lemma ipv6_lang s v :
  ipv6_from_str s = Val (Ok v) <->
  (String.length s <= 38)%nat /\ (v6_text s v \/ v6_trailing s v).
Proof.
  unfold ipv6_from_str. rewrite <- (bytes_len s).
  split.
  - (* soundness *)
    rewrite ipv6_from_bytes_cases.
    destruct (Nat.ltb 38 (length (bytes_of s)) || Nat.ltb (length (bytes_of s)) 2) eqn:E; [discriminate|].
    apply orb_false_iff in E as [E1 E2]. apply Nat.ltb_ge in E1, E2. intros H. split; [exact E1|].
    assert (Hsplit : (exists r, bytes_of s = (":" :: ":" :: r)%char%list /\ (r = [] -> v = 0) /\
                        (r <> [] -> run_from (bytes_of s) 2 (Some 0%nat) = Val (Ok v))) \/
                     ((forall r, bytes_of s <> (":"%char :: r)) /\ run_from (bytes_of s) 0 None = Val (Ok v))).
    { destruct (bytes_of s) as [|a b]; [simpl in E2; lia|].
      destruct (Ascii.eqb_spec a ":"%char) as [->|Ha].
      - destruct b as [|c b]; [simpl in E2; lia|].
        destruct (Ascii.eqb_spec c ":"%char) as [->|Hc].
        + left. exists b. split; [reflexivity|]. destruct b; split; intros; try congruence.
        + exfalso. destruct c as [[] [] [] [] [] [] [] []]; try discriminate H; apply Hc; reflexivity.
      - right. split; [intros r Hr; congruence|].
        destruct a as [[] [] [] [] [] [] [] []]; try exact H; exfalso; apply Ha; reflexivity. }
    clear H. destruct Hsplit as [(r & Eb & H0 & Hr)|[Hn Hr]].
    + (* leading "::" *)
      assert (Es : s = "::" ++ string_of_list_ascii r).
      { apply bytes_inj. rewrite Eb, bytes_app, list_ascii_of_string_of_list_ascii. reflexivity. }
      destruct r as [|a r].
      * left; right. exists [], [], [], []. splits; [simpl; lia|constructor|constructor|exact Es|].
        rewrite (H0 eq_refl). reflexivity.
      * specialize (Hr ltac:(discriminate)). rewrite Eb in Hr.
        change (run_from ([":"%char; ":"%char] ++ (a :: r)) (length [":"%char; ":"%char]) (Some 0%nat) = Val (Ok v)) in Hr.
        apply run_from_iff in Hr; [|simpl; lia].
        destruct Hr as (e' & vs' & Hs & Hd). apply scan_inv in Hs as [[-> (gs & ws & Hf & -> & Hp)]|[? _]]; [|discriminate].
        destruct Hd as [(? & _)|(hi & lo & Hh & Hv & Hl & ->)]; [discriminate|].
        inversion Hh as [Hh']. destruct hi; [|discriminate]. cbn [app] in Hv. subst ws.
        pose proof (F2len _ _ _ Hf) as Lg.
        destruct Hp as [[Er _]|(Hne & Er & _)].
        -- left; right. exists gs, [], [], lo. splits; [simpl in *; lia|constructor|exact Hf| |].
           ++ rewrite Es. cbn [append sep_by]. f_equal. f_equal. rewrite Er, string_of_list_ascii_of_string. reflexivity.
           ++ cbn [app length] in *. rewrite Lg. reflexivity.
        -- right. exists ("::" ++ grp gs), gs. splits; [exact Hne| |].
           ++ rewrite Es. cbn [append]. f_equal. f_equal. rewrite Er, string_of_list_ascii_of_string. reflexivity.
           ++ exists [], [], lo. splits; [simpl in *; lia|constructor|exact Hf|reflexivity|].
              cbn [app length] in *. rewrite Lg. reflexivity.
    + change (run_from ([] ++ bytes_of s) (length (@nil ascii)) None = Val (Ok v)) in Hr.
      apply run_from_iff in Hr; [|exact I].
      destruct Hr as (e' & vs' & Hs & Hd). apply scan_inv in Hs as [[-> (gs & ws & Hf & -> & Hp)]|[_ (gs & ws & r2 & Hf & Hp & Hs)]].
      * destruct Hd as [(_ & H8 & ->)|(hi & lo & ? & _)]; [|discriminate]. cbn [app] in *.
        pose proof (F2len _ _ _ Hf) as Lg.
        destruct Hp as [[Er _]|(Hne & Er & Hl)]; [|simpl in Hl; lia].
        left; left. exists gs, ws. splits; [lia|exact Hf|apply bytes_inj; exact Er|reflexivity].
      * destruct Hp as [[-> Er]|(Hne & Er & Hl)]; [exfalso; exact (Hn _ Er)|].
        cbn [app length Nat.add] in Hs. pose proof (F2len _ _ _ Hf) as Lg.
        apply scan_inv in Hs as [[-> (gs2 & ws2 & Hf2 & -> & Hp2)]|[? _]]; [|discriminate].
        destruct Hd as [(? & _)|(hi & lo & Hh & Hv & Hl2 & ->)]; [discriminate|].
        inversion Hh as [Hh']. pose proof (F2len _ _ _ Hf2) as Lg2.
        assert (hi = ws /\ lo = ws2) as [-> ->].
        { assert (L : length ws = length hi) by lia. clear - Hv L. revert hi L Hv.
          induction ws as [|w ws IH]; intros [|h hi] L Hv; try discriminate L; cbn [app] in *.
          - auto.
          - inversion Hv; subst. destruct (IH hi) as [-> ->]; auto. }
        destruct Hp2 as [[Er2 _]|(Hne2 & Er2 & _)].
        -- left; right. exists gs2, gs, ws, ws2. splits; [lia|exact Hf|exact Hf2| |].
           ++ apply bytes_inj. rewrite Er, Er2, !bytes_app. reflexivity.
           ++ rewrite Lg, Lg2. reflexivity.
        -- right. exists (grp gs ++ "::" ++ grp gs2), gs2. splits; [exact Hne2| |].
           ++ apply bytes_inj. rewrite Er, Er2, !bytes_app, <- !app_assoc. reflexivity.
           ++ exists gs, ws, ws2. splits; [lia|exact Hf|exact Hf2|reflexivity|]. rewrite Lg, Lg2. reflexivity.
  - (* completeness *)
    intros [Hlen Hv]. rewrite ipv6_from_bytes_cases.
    assert (Hgl : forall gs ws, Forall2 group_text gs ws -> gs <> [] -> (1 <= length (bytes_of (grp gs)))%nat).
    { intros gs ws Hf Hne. destruct (grp_nil_or_head _ _ Hf Hne) as (a & r & -> & _). simpl; lia. }
    (* compressed text with continuation [t] after the low groups *)
    assert (HC : forall hi lo vhi vlo t, (length hi + length lo <= 7)%nat -> Forall2 group_text hi vhi -> Forall2 group_text lo vlo ->
       (t = [] \/ (t = [":"%char] /\ lo <> [])) ->
       scan (Some (length hi)) vhi (bytes_of (grp lo) ++ t) (Some (length hi)) (vhi ++ vlo)).
    { intros hi lo vhi vlo t Hl Hf1 Hf2 Ht. pose proof (F2len _ _ _ Hf1) as L1.
      destruct Ht as [->|[-> Hne]].
      - rewrite app_nil_r. apply scan_plain; [exact Hf2|lia].
      - apply scan_cont with (ws := vlo); [exact Hf2|exact Hne|lia|constructor]. }
    assert (HR : forall hi lo vhi vlo t, (length hi + length lo <= 7)%nat -> Forall2 group_text hi vhi -> Forall2 group_text lo vlo ->
       (t = "" \/ (t = ":" /\ lo <> [])) -> s = grp hi ++ "::" ++ grp lo ++ t ->
       v = be_value 65536 (vhi ++ repeat 0 (8 - (length hi + length lo)) ++ vlo) ->
       (if Nat.ltb 38 (length (bytes_of s)) || Nat.ltb (length (bytes_of s)) 2 then Val (Err "Invalid ipv6 size")
        else match bytes_of s with
       | ":"%char :: ":"%char :: [] => Val (Ok 0)
       | ":"%char :: ":"%char :: _ => run_from (bytes_of s) 2 (Some 0%nat)
       | ":"%char :: _ => Val (Err "An IPv6 cannot start with a single column.")
       | _ => run_from (bytes_of s) 0 None
       end) = Val (Ok v)).
    { intros hi lo vhi vlo t Hl Hf1 Hf2 Ht Es Ev.
      pose proof (F2len _ _ _ Hf1) as L1. pose proof (F2len _ _ _ Hf2) as L2.
      assert (Eb : bytes_of s = (bytes_of (grp hi) ++ ":"%char :: ":"%char :: (bytes_of (grp lo) ++ bytes_of t))%list).
      { rewrite Es, !bytes_app. reflexivity. }
      assert (Hlen2 : (2 <= length (bytes_of s))%nat) by (rewrite Eb, app_length; simpl; lia).
      replace (Nat.ltb 38 (length (bytes_of s)) || Nat.ltb (length (bytes_of s)) 2) with false
        by (symmetry; apply orb_false_iff; split; apply Nat.ltb_ge; lia).
      assert (Ht' : bytes_of t = [] \/ (bytes_of t = [":"%char] /\ lo <> []))
        by (destruct Ht as [->|[-> ?]]; [left; reflexivity|right; auto]).
      destruct hi as [|h hi].
      - inversion Hf1; subst vhi. cbn [sep_by list_ascii_of_string app] in Eb. rewrite Eb.
        destruct (bytes_of (grp lo) ++ bytes_of t)%list as [|a r] eqn:Er.
        + assert (lo = []).
          { destruct lo; [reflexivity|]. specialize (Hgl _ _ Hf2 ltac:(discriminate)).
            apply (f_equal (@length _)) in Er. rewrite app_length in Er. cbn [length] in Er. lia. }
          subst lo. inversion Hf2; subst. reflexivity.
        + rewrite <- Er.
          change (run_from ([":"%char; ":"%char] ++ (bytes_of (grp lo) ++ bytes_of t)) (length [":"%char; ":"%char]) (Some 0%nat) = Val (Ok v)).
          apply run_from_iff; [simpl; lia|].
          exists (Some 0%nat), vlo. split.
          * apply (HC [] lo [] vlo _ Hl Hf1 Hf2 Ht').
          * right. exists [], vlo. splits; [reflexivity|reflexivity|simpl in *; lia|].
            rewrite Ev. cbn [length app]. rewrite L2. reflexivity.
      - destruct (grp_nil_or_head _ _ Hf1 ltac:(discriminate)) as (a & r & Ea & Hna & _).
        assert (Hrun : run_from (bytes_of s) 0 None = Val (Ok v)).
        { change (run_from ([] ++ bytes_of s) (length (@nil ascii)) None = Val (Ok v)).
          apply run_from_iff; [exact I|].
          exists (Some (length (h :: hi))), (vhi ++ vlo)%list. split.
          - rewrite Eb. apply scan_cont with (ws := vhi); [exact Hf1|discriminate|simpl in *; lia|].
            constructor. cbn [app]. rewrite <- L1. apply HC; auto.
          - right. exists vhi, vlo. splits; [congruence|reflexivity|lia|]. rewrite Ev, L1, L2. reflexivity. }
        rewrite <- Hrun. rewrite Eb, Ea. cbn [app].
        destruct a as [[] [] [] [] [] [] [] []]; try reflexivity; exfalso; apply Hna; reflexivity. }
    destruct Hv as [[(gs & ws & H8 & Hf & Es & ->)|(lo & hi & vhi & vlo & Hl & Hf1 & Hf2 & Es & Ev)]
                   |(s' & lo & Hne & Es' & (hi & vhi & vlo & Hl & Hf1 & Hf2 & Es & Ev))].
    + pose proof (F2len _ _ _ Hf) as L.
      destruct (grp_nil_or_head _ _ Hf) as (a & r & Ea & Hna & _); [intros ->; discriminate|].
      assert (Hlen2 : (2 <= length (bytes_of s))%nat).
      { destruct gs as [|g [|g2 gs]]; try discriminate H8. rewrite Es, sep_by_cons by discriminate.
        inversion Hf as [|? ? ? ? [Hg _] ?]; subst. rewrite bytes_app, app_length, bytes_len. simpl. lia. }
      replace (Nat.ltb 38 (length (bytes_of s)) || Nat.ltb (length (bytes_of s)) 2) with false
        by (symmetry; apply orb_false_iff; split; apply Nat.ltb_ge; lia).
      assert (Hrun : run_from (bytes_of s) 0 None = Val (Ok (be_value 65536 ws))).
      { change (run_from ([] ++ bytes_of s) (length (@nil ascii)) None = Val (Ok (be_value 65536 ws))).
        apply run_from_iff; [exact I|]. exists None, ws. split.
        - rewrite Es. apply (scan_plain None gs ws []); [exact Hf|simpl; lia].
        - left. splits; [reflexivity|lia|reflexivity]. }
      rewrite <- Hrun, Es, Ea.
      destruct a as [[] [] [] [] [] [] [] []]; try reflexivity; exfalso; apply Hna; reflexivity.
    + apply (HR hi lo vhi vlo ""); auto. rewrite str_app_nil_r. exact Es.
    + apply (HR hi lo vhi vlo ":"); auto. rewrite Es', Es. rewrite !str_app_assoc. reflexivity.
Qed.
