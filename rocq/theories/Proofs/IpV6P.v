From Coq Require Import String Ascii List Bool.
From Verif Require Import Base.Arith Base.Str Base.Outcome Spec.TextSpec Proofs.TextP Model.IpUtils.
Import ListNotations.
Local Open Scope string_scope.
Local Open Scope N_scope.
Ltac Zify.zify_post_hook ::= Z.div_mod_to_equations.

Notation bytes_of := list_ascii_of_string.

Lemma bytes_app s t : bytes_of (s ++ t) = (bytes_of s ++ bytes_of t)%list.
Proof. induction s as [|a s IH]; simpl; congruence. Qed.
Lemma bytes_len s : length (bytes_of s) = String.length s.
Proof. induction s as [|a s IH]; simpl; congruence. Qed.
Lemma bytes_inj s t : bytes_of s = bytes_of t -> s = t.
Proof.
  intros H. rewrite <- (string_of_list_ascii_of_string s), <- (string_of_list_ascii_of_string t). congruence.
Qed.

Ltac len := rewrite ?app_length, ?bytes_len, ?repeat_length; cbn [length]; rewrite ?app_length, ?bytes_len; cbn [length]; lia.

(** ** Hex digits *)
Lemma hex_to_digit_spec a d : hex_to_digit a = Some d <-> hex_digit a d.
Proof.
  unfold hex_digit. rewrite !get_nth_tbl. split.
  - intros H.
    assert (S : forallb (fun a => match hex_to_digit a with
       | Some d => match nth_error (bytes_of "0123456789abcdef") (N.to_nat d), nth_error (bytes_of "0123456789ABCDEF") (N.to_nat d) with
                   | Some b, Some c => Ascii.eqb a b || Ascii.eqb a c | _, _ => false end
       | None => true end) ascii_all = true) by (vm_compute; reflexivity).
    rewrite forallb_forall in S. specialize (S a (ascii_all_in a)). cbv beta in S. rewrite H in S.
    destruct (nth_error _ _) as [b|]; [|discriminate]. destruct (nth_error _ _) as [c|]; [|discriminate].
    apply orb_true_iff in S as [S|S]; apply Ascii.eqb_eq in S; subst; auto.
  - assert (K : forall tbl, tbl = "0123456789abcdef" \/ tbl = "0123456789ABCDEF" ->
       nth_error (bytes_of tbl) (N.to_nat d) = Some a -> hex_to_digit a = Some d).
    { intros tbl Ht H. assert (Hd : (N.to_nat d < 16)%nat).
      { replace 16%nat with (length (bytes_of tbl)) by (destruct Ht as [-> | ->]; reflexivity).
        apply nth_error_Some; congruence. }
      assert (S : forallb (fun n => match nth_error (bytes_of tbl) n with
         Some b => opt_eqb (hex_to_digit b) (Some (N.of_nat n)) | None => false end) (seq 0 16) = true)
        by (destruct Ht as [-> | ->]; vm_compute; reflexivity).
      rewrite forallb_forall in S. specialize (S (N.to_nat d)). rewrite in_seq in S.
      specialize (S ltac:(lia)). cbv beta in S. rewrite H in S. apply opt_eqb_eq in S.
      rewrite S, N2Nat.id. reflexivity. }
    intros [H|H]; [apply (K "0123456789abcdef"); auto|apply (K "0123456789ABCDEF"); auto].
Qed.

Lemma is_hexdigit_some a : is_hexdigit a = match hex_to_digit a with Some _ => true | None => false end.
Proof.
  unfold is_hexdigit, hex_to_digit.
  destruct ((48 <=? N_of_ascii a) && (N_of_ascii a <=? 57)); [reflexivity|].
  destruct ((97 <=? N_of_ascii a) && (N_of_ascii a <=? 102)); [reflexivity|].
  destruct ((65 <=? N_of_ascii a) && (N_of_ascii a <=? 70)); reflexivity.
Qed.

Lemma hex_to_digit_lt a d : hex_to_digit a = Some d -> d < 16.
Proof.
  unfold hex_to_digit.
  destruct ((48 <=? N_of_ascii a) && (N_of_ascii a <=? 57)) eqn:E1; [intros H; inversion H; lia|].
  destruct ((97 <=? N_of_ascii a) && (N_of_ascii a <=? 102)) eqn:E2; [intros H; inversion H; lia|].
  destruct ((65 <=? N_of_ascii a) && (N_of_ascii a <=? 70)) eqn:E3; [intros H; inversion H; lia|discriminate].
Qed.

(** ** Groups *)
Definition hexs (g : list ascii) (ds : list N) : Prop := Forall2 (fun a d => hex_to_digit a = Some d) g ds.

Lemma hexs_denotes g ds : hexs g ds -> denotes hex_digit 16 (string_of_list_ascii g) (be_value 16 ds).
Proof.
  intros H. revert ds H. induction g as [|a g IH] using rev_ind; intros ds H.
  - inversion H; subst. constructor.
  - apply Forall2_app_inv_l in H as (d1 & d2 & H1 & H2 & ->).
    inversion H2 as [|? d ? ? Hd Hn]; subst. inversion Hn; subst.
    rewrite be_value_app. replace (be_value 16 d1 * 16 + d) with (16 * be_value 16 d1 + d) by lia.
    replace (string_of_list_ascii (g ++ [a])) with (string_of_list_ascii g ++ String a "").
    + constructor; [apply IH; exact H1|apply hex_to_digit_spec; exact Hd].
    + clear. induction g as [|b g IH]; simpl; congruence.
Qed.

Lemma denotes_hexs s v : denotes hex_digit 16 s v -> exists ds, hexs (bytes_of s) ds /\ v = be_value 16 ds.
Proof.
  induction 1 as [|s v a d H (ds & IH1 & ->) Ha].
  - exists []. split; [constructor|reflexivity].
  - exists (ds ++ [d])%list. split.
    + rewrite bytes_app. apply Forall2_app; [exact IH1|]. constructor; [apply hex_to_digit_spec; exact Ha|constructor].
    + rewrite be_value_app. lia.
Qed.

Definition head_nonhex (r : list ascii) : Prop := match r with [] => True | a :: _ => is_hexdigit a = false end.

Lemma take_digits_spec n b : exists g ds r,
  take_digits n b = Val ds /\ b = (g ++ r)%list /\ hexs g ds /\ (length g <= n)%nat /\
  (length g = n \/ head_nonhex r).
Proof.
  revert b; induction n as [|n IH]; intros b; cbn [take_digits].
  - exists [], [], b. splits; auto; apply Forall2_nil.
  - destruct b as [|a b].
    + exists [], [], []. splits; [reflexivity|reflexivity|apply Forall2_nil|simpl; lia|right; exact I].
    + destruct (is_hexdigit a) eqn:E.
      * rewrite is_hexdigit_some in E. destruct (hex_to_digit a) as [d|] eqn:Ed; [|discriminate].
        destruct (IH b) as (g & ds & r & -> & -> & Hh & Hl & Hr). cbn [obind].
        exists (a :: g), (d :: ds), r. splits; auto.
        -- constructor; auto.
        -- simpl; lia.
        -- destruct Hr; [left; simpl; lia|right; auto].
      * exists [], [], (a :: b). splits; [reflexivity|reflexivity|apply Forall2_nil|simpl; lia|right; exact E].
Qed.

Lemma take_digits_app n g ds r :
  hexs g ds -> (length g <= n)%nat -> (length g = n \/ head_nonhex r) -> take_digits n (g ++ r) = Val ds.
Proof.
  intros H; revert n; induction H as [|a d g ds Ha Hg IH]; intros n Hl Hr.
  - destruct n; cbn [take_digits app]; [reflexivity|].
    destruct r as [|b r]; [reflexivity|]. destruct Hr as [Hr|Hr]; [discriminate|]. simpl in Hr. rewrite Hr. reflexivity.
  - destruct n as [|n]; [simpl in Hl; lia|]. cbn [take_digits app].
    rewrite is_hexdigit_some, Ha. rewrite IH; [reflexivity|simpl in Hl; lia|].
    destruct Hr as [Hr|Hr]; [left; simpl in Hr; lia|auto].
Qed.

Lemma hexs_bound g ds : hexs g ds -> Forall (fun d => d < 16) ds.
Proof. induction 1; constructor; auto. eapply hex_to_digit_lt; eauto. Qed.

Lemma hexs_len g ds : hexs g ds -> length g = length ds.
Proof. induction 1; simpl; congruence. Qed.

Lemma sum_digits_spec ds : Forall (fun d => d < 16) ds -> (1 <= length ds <= 4)%nat ->
  sum_digits ds (N.of_nat (length ds - 1) * 4) 0 = Val (be_value 16 ds) /\ be_value 16 ds < 65536.
Proof.
  intros Hb Hl. 
  destruct ds as [|d0 [|d1 [|d2 [|d3 [|]]]]]; simpl in Hl; try lia;
  repeat match goal with H : Forall _ (_ :: _) |- _ => inversion H; clear H; subst end;
  unfold be_value; cbn [length Nat.sub fold_left sum_digits];
  repeat match goal with |- context [N.of_nat ?k * 4] => let x := eval vm_compute in (N.of_nat k * 4) in change (N.of_nat k * 4) with x end.
  - rewrite N.shiftl_0_r. split; [|lia].
    replace (65535 <? 0 + d0 mod 65536) with false by lia. change (4 <=? 0) with false. cbv iota. f_equal. lia.
  - change (4 <=? 4) with true. change (4 - 4) with 0. change (4 <=? 0) with false.
    rewrite N.shiftl_0_r, !N.shiftl_mul_pow2. change (2 ^ 4) with 16. split; [|lia].
    replace (65535 <? 0 + d0 * 16 mod 65536) with false by lia.
    replace (65535 <? 0 + d0 * 16 mod 65536 + d1 mod 65536) with false by lia. f_equal. lia.
  - change (4 <=? 8) with true. change (8 - 4) with 4. change (4 <=? 4) with true. change (4 - 4) with 0. change (4 <=? 0) with false.
    rewrite N.shiftl_0_r, !N.shiftl_mul_pow2. change (2 ^ 4) with 16. change (2 ^ 8) with 256. split; [|lia].
    replace (65535 <? 0 + d0 * 256 mod 65536) with false by lia.
    replace (65535 <? 0 + d0 * 256 mod 65536 + d1 * 16 mod 65536) with false by lia.
    replace (65535 <? 0 + d0 * 256 mod 65536 + d1 * 16 mod 65536 + d2 mod 65536) with false by lia. f_equal. lia.
  - change (4 <=? 12) with true. change (12 - 4) with 8. change (4 <=? 8) with true. change (8 - 4) with 4. change (4 <=? 4) with true. change (4 - 4) with 0. change (4 <=? 0) with false.
    rewrite N.shiftl_0_r, !N.shiftl_mul_pow2. change (2 ^ 4) with 16. change (2 ^ 8) with 256. change (2 ^ 12) with 4096. split; [|lia].
    replace (65535 <? 0 + d0 * 4096 mod 65536) with false by lia.
    replace (65535 <? 0 + d0 * 4096 mod 65536 + d1 * 256 mod 65536) with false by lia.
    replace (65535 <? 0 + d0 * 4096 mod 65536 + d1 * 256 mod 65536 + d2 * 16 mod 65536) with false by lia.
    replace (65535 <? 0 + d0 * 4096 mod 65536 + d1 * 256 mod 65536 + d2 * 16 mod 65536 + d3 mod 65536) with false by lia. f_equal. lia.
Qed.

Lemma group_text_lt g v : group_text g v -> v < 65536.
Proof.
  intros [Hl Hd]. apply denotes_hexs in Hd as (ds & Hh & ->).
  apply sum_digits_spec; [eapply hexs_bound; eauto|]. rewrite <- (hexs_len _ _ Hh), bytes_len. exact Hl.
Qed.

(** [read_hextet] always answers; it either reads nothing or the longest group. *)
Lemma read_hextet_spec b :
  (read_hextet b = Val (0%nat, 0) /\ head_nonhex b) \/
  (exists g v r, b = (bytes_of g ++ r)%list /\ group_text g v /\ read_hextet b = Val (String.length g, v)
                 /\ (String.length g = 4%nat \/ head_nonhex r)).
Proof.
  unfold read_hextet. destruct (take_digits_spec 4 b) as (g & ds & r & -> & -> & Hh & Hl & Hr). cbn [obind].
  pose proof (hexs_len _ _ Hh) as Hlen.
  destruct ds as [|d ds].
  - left. split; [reflexivity|]. destruct g; [|discriminate]. destruct Hr as [Hr|Hr]; [simpl in Hr; lia|exact Hr].
  - right. exists (string_of_list_ascii g), (be_value 16 (d :: ds)), r.
    rewrite list_ascii_of_string_of_list_ascii.
    assert (L : String.length (string_of_list_ascii g) = length g).
    { rewrite <- bytes_len, list_ascii_of_string_of_list_ascii. reflexivity. }
    destruct (sum_digits_spec (d :: ds) (hexs_bound _ _ Hh)) as [Hs _]; [rewrite <- Hlen; simpl in *; lia|].
    rewrite Hs. cbn [obind]. rewrite L, Hlen. splits; auto.
    + split; [rewrite L; simpl in Hlen; lia|]. apply hexs_denotes; exact Hh.
    + rewrite <- Hlen. exact Hr.
Qed.

Lemma read_hextet_group g v r :
  group_text g v -> head_nonhex r -> read_hextet (bytes_of g ++ r) = Val (String.length g, v).
Proof.
  intros [Hl Hd] Hr. apply denotes_hexs in Hd as (ds & Hh & ->). unfold read_hextet.
  pose proof (hexs_len _ _ Hh) as Hlen. rewrite bytes_len in Hlen.
  rewrite (take_digits_app 4 _ ds r Hh); [|rewrite bytes_len; lia|auto]. cbn [obind].
  destruct ds as [|d ds]; [simpl in Hlen; lia|].
  destruct (sum_digits_spec (d :: ds) (hexs_bound _ _ Hh)) as [Hs _]; [rewrite <- Hlen; simpl in *; lia|].
  rewrite Hs. cbn [obind]. rewrite Hlen. reflexivity.
Qed.

(** ** Arrays *)
Lemma set_nth_app a x y b : set_nth (length a) x (a ++ y :: b) = Val (a ++ x :: b)%list.
Proof. induction a as [|z a IH]; cbn [length app set_nth]; [reflexivity|]. rewrite IH. reflexivity. Qed.

Lemma get_nth_app a x b : get_nth (length a) (a ++ x :: b) = Val x.
Proof. unfold get_nth. rewrite nth_error_app2 by lia. rewrite Nat.sub_diag. reflexivity. Qed.

Lemma repeat_snoc {A} (x : A) n : (repeat x n ++ [x])%list = x :: repeat x n.
Proof. induction n as [|n IH]; simpl; [reflexivity|]. rewrite IH. reflexivity. Qed.

Lemma shift_groups_spec v1 v2 nz tail : (1 <= nz)%nat ->
  shift_groups (length v2) (length v1) nz (v1 ++ v2 ++ repeat 0 nz ++ tail) =
  Val (v1 ++ repeat 0 nz ++ v2 ++ tail)%list.
Proof.
  intros Hz. revert tail. induction v2 as [|x v2 IH] using rev_ind; intros tail.
  - reflexivity.
  - rewrite app_length. cbn [length]. rewrite Nat.add_1_r. cbn [shift_groups].
    destruct nz as [|nz]; [lia|].
    assert (E1 : (v1 ++ (v2 ++ [x]) ++ repeat 0 (S nz) ++ tail)%list = ((v1 ++ v2) ++ x :: (repeat 0 (S nz) ++ tail))%list)
      by (rewrite <- !app_assoc; reflexivity).
    rewrite E1. rewrite <- app_length. rewrite get_nth_app. cbn [obind].
    assert (E2 : ((v1 ++ v2) ++ x :: (repeat 0 (S nz) ++ tail))%list = (((v1 ++ v2) ++ x :: repeat 0 nz) ++ 0 :: tail)%list).
    { rewrite <- !app_assoc. f_equal. f_equal. cbn [app]. f_equal.
      cbn [repeat app]. change (0 :: repeat 0 nz ++ tail)%list with ((0 :: repeat 0 nz) ++ tail)%list.
      rewrite <- repeat_snoc, <- app_assoc. reflexivity. }
    rewrite E2.
    replace (length (v1 ++ v2) + S nz)%nat with (length ((v1 ++ v2) ++ x :: repeat 0 nz)).
    2:{ rewrite (app_length (v1 ++ v2)). cbn [length]. rewrite repeat_length. lia. }
    rewrite set_nth_app. cbn [obind].
    rewrite <- (app_assoc (v1 ++ v2)). cbn [app]. rewrite set_nth_app. cbn [obind].
    specialize (IH (x :: tail)).
    rewrite <- (app_assoc v1). cbn [app repeat] in *.
    rewrite IH. rewrite <- (app_assoc v2). reflexivity.
Qed.

Lemma v6_sum_spec a : length a = 8%nat -> v6_sum a = Val (be_value 65536 a).
Proof.
  intros H. destruct a as [|a0 [|a1 [|a2 [|a3 [|a4 [|a5 [|a6 [|a7 [|]]]]]]]]]; try discriminate.
  cbn [v6_sum]. f_equal. unfold be_value; cbn [fold_left]. rewrite !N.shiftl_mul_pow2.
  change (2 ^ 112) with (65536 * 65536 * 65536 * 65536 * 65536 * 65536 * 65536).
  change (2 ^ 96) with (65536 * 65536 * 65536 * 65536 * 65536 * 65536).
  change (2 ^ 80) with (65536 * 65536 * 65536 * 65536 * 65536).
  change (2 ^ 64) with (65536 * 65536 * 65536 * 65536).
  change (2 ^ 48) with (65536 * 65536 * 65536).
  change (2 ^ 32) with (65536 * 65536). change (2 ^ 16) with 65536. lia.
Qed.

Lemma be65536_bound vs : Forall (fun x => x < 65536) vs -> be_value 65536 vs < 65536 ^ N.of_nat (length vs).
Proof.
  induction vs as [|d l IH] using rev_ind; intros H; [reflexivity|].
  apply Forall_app in H as [H1 H2]. inversion H2; subst.
  rewrite be_value_app, app_length. cbn [length].
  replace (N.of_nat (length l + 1)) with (1 + N.of_nat (length l)) by lia.
  rewrite N.pow_add_r. specialize (IH H1). change (65536 ^ 1) with 65536. lia.
Qed.

(** ** The loop as a relation on the remaining text *)
Inductive scan : option nat -> list N -> list ascii -> option nat -> list N -> Prop :=
| scan_nil e vs : scan e vs [] e vs
| scan_ell vs r e' vs' :
    scan (Some (length vs)) vs r e' vs' -> scan None vs (":"%char :: r) e' vs'
| scan_last e vs g v :
    group_text g v -> (length vs < 8)%nat -> scan e vs (bytes_of g) e (vs ++ [v])
| scan_more e vs g v r e' vs' :
    group_text g v -> (length vs < 7)%nat -> scan e (vs ++ [v]) r e' vs' ->
    scan e vs (bytes_of g ++ ":"%char :: r) e' vs'.

Definition stt (off : nat) (ell : option nat) (vs : list N) : v6state :=
  {| v6_off := off; v6_ell := ell; v6_addr := (vs ++ repeat 0 (8 - length vs))%list; v6_idx := length vs |}.

Definition ell_ok (e : option nat) (vs : list N) : Prop := match e with Some k => (k <= length vs)%nat | None => True end.

Lemma skipn_app_len {A} (a b : list A) : skipn (length a) (a ++ b) = b.
Proof. rewrite skipn_app, skipn_all, Nat.sub_diag. reflexivity. Qed.

Lemma set_idx vs v : (length vs < 8)%nat ->
  set_nth (length vs) v (vs ++ repeat 0 (8 - length vs)) = Val ((vs ++ [v]) ++ repeat 0 (8 - length (vs ++ [v])))%list.
Proof.
  intros H. replace (8 - length vs)%nat with (S (8 - length (vs ++ [v])))%nat by len.
  cbn [repeat]. rewrite set_nth_app, <- app_assoc. reflexivity.
Qed.

Lemma group_head g v : group_text g v -> exists a r, g = String a r /\ is_hexdigit a = true.
Proof.
  intros [Hl Hd]. apply denotes_hexs in Hd as (ds & Hh & _).
  destruct g as [|a g]; [simpl in Hl; lia|]. simpl in Hh. inversion Hh as [|? d ? ? Hd ?]; subst.
  exists a, g. split; [reflexivity|]. rewrite is_hexdigit_some, Hd. reflexivity.
Qed.

Lemma nonhex_not_head a r : is_hexdigit a = true -> head_nonhex (a :: r) -> False.
Proof. simpl; congruence. Qed.

(** From the scan relation to the loop. *)
Lemma scan_loop e vs r e' vs' : scan e vs r e' vs' ->
  forall pre fuel, (length vs < 8 \/ r = [])%nat -> (length r < fuel)%nat ->
  v6_loop fuel (pre ++ r) (stt (length pre) e vs) = Val (Exit (stt (length (pre ++ r)) e' vs')).
Proof.
  induction 1 as [e vs|vs r e' vs' Hs IH|e vs g v Hg Hl|e vs g v r e' vs' Hg Hl Hs IH]; intros pre fuel Hv Hf.
  - destruct fuel as [|fuel]; [lia|]. cbn [v6_loop stt v6_off]. rewrite app_nil_r, Nat.eqb_refl. reflexivity.
  - destruct fuel as [|fuel]; [lia|]. cbn [v6_loop stt v6_off v6_ell v6_addr v6_idx].
    replace (Nat.eqb (length pre) (length (pre ++ ":"%char :: r))) with false
      by len.
    rewrite skipn_app_len.
    assert (Er : read_hextet (":"%char :: r) = Val (0%nat, 0)).
    { unfold read_hextet; cbn [take_digits]. change (is_hexdigit ":") with false. reflexivity. }
    rewrite Er. cbn [obind Nat.eqb].
    rewrite nth_error_app2, Nat.sub_diag by lia. cbn [nth_error].
    specialize (IH (pre ++ [":"%char])%list fuel).
    assert (Ea : ((pre ++ [":"%char]) ++ r)%list = (pre ++ ":"%char :: r)%list) by (rewrite <- app_assoc; reflexivity).
    rewrite Ea in IH.
    unfold stt in IH. rewrite app_length in IH. cbn [length] in IH.
    apply IH; [|simpl in Hf; lia]. destruct Hv as [Hv|Hv]; [auto|discriminate].
  - destruct fuel as [|fuel]; [lia|]. cbn [v6_loop stt v6_off v6_ell v6_addr v6_idx].
    destruct (group_head _ _ Hg) as (a & g' & Eg & _).
    assert (Hgl : (1 <= String.length g)%nat) by (rewrite Eg; simpl; lia).
    replace (Nat.eqb (length pre) (length (pre ++ bytes_of g))) with false
      by len.
    rewrite skipn_app_len.
    pose proof (read_hextet_group g v [] Hg I) as Er. rewrite app_nil_r in Er. rewrite Er.
    cbn [obind]. replace (Nat.eqb (String.length g) 0) with false by lia.
    rewrite set_idx by exact Hl. cbn [obind].
    replace (Nat.eqb (length pre + String.length g) (length (pre ++ bytes_of g))) with true
      by len.
    rewrite orb_true_r. unfold stt. rewrite !app_length, bytes_len. cbn [length]. reflexivity.
  - destruct fuel as [|fuel]; [lia|]. cbn [v6_loop stt v6_off v6_ell v6_addr v6_idx].
    destruct (group_head _ _ Hg) as (a & g' & Eg & _).
    assert (Hgl : (1 <= String.length g)%nat) by (rewrite Eg; simpl; lia).
    replace (Nat.eqb (length pre) (length (pre ++ bytes_of g ++ ":"%char :: r))) with false
      by len.
    rewrite skipn_app_len.
    rewrite (read_hextet_group g v _ Hg) by reflexivity.
    cbn [obind]. replace (Nat.eqb (String.length g) 0) with false by lia.
    rewrite set_idx by lia. cbn [obind].
    replace (Nat.eqb (length vs + 1) 8) with false by lia.
    replace (Nat.eqb (length pre + String.length g) (length (pre ++ bytes_of g ++ ":"%char :: r))) with false
      by len.
    cbn [orb].
    assert (En : nth_error (pre ++ bytes_of g ++ ":"%char :: r) (length pre + String.length g) = Some ":"%char).
    { rewrite app_assoc. rewrite nth_error_app2 by len.
      rewrite app_length, bytes_len, Nat.sub_diag. reflexivity. }
    rewrite En.
    specialize (IH (pre ++ bytes_of g ++ [":"%char])%list fuel).
    assert (Ea : ((pre ++ bytes_of g ++ [":"%char]) ++ r)%list = (pre ++ bytes_of g ++ ":"%char :: r)%list)
      by (rewrite <- !app_assoc; reflexivity).
    rewrite Ea in IH. unfold stt in IH. rewrite !(app_length pre), !(app_length (bytes_of g)), bytes_len in IH. rewrite !(app_length vs) in IH. cbn [length] in IH.
    rewrite Nat.add_assoc in IH. rewrite app_length. cbn [length].
    rewrite IH.
    + unfold stt. rewrite !app_length, bytes_len. cbn [length]. reflexivity.
    + left; lia.
    + rewrite app_length, bytes_len in Hf. simpl in Hf. lia.
Qed.

(** From the loop to the scan relation; also totality. *)
Lemma loop_scan fuel : forall pre r e vs,
  (length r < fuel)%nat -> (length vs < 8 \/ r = [])%nat -> (length vs <= 8)%nat ->
  Forall (fun x => x < 65536) vs -> ell_ok e vs ->
  (exists m, v6_loop fuel (pre ++ r) (stt (length pre) e vs) = Val (Fail m)) \/
  (exists st, v6_loop fuel (pre ++ r) (stt (length pre) e vs) = Val (Exit st) /\ (v6_off st < length (pre ++ r))%nat) \/
  (exists e' vs', v6_loop fuel (pre ++ r) (stt (length pre) e vs) = Val (Exit (stt (length (pre ++ r)) e' vs')) /\
     scan e vs r e' vs' /\ (length vs' <= 8)%nat /\ Forall (fun x => x < 65536) vs' /\ ell_ok e' vs').
Proof.
  induction fuel as [|fuel IH]; intros pre r e vs Hf Hv Hv8 Hb He; [lia|].
  cbn [v6_loop stt v6_off v6_ell v6_addr v6_idx].
  destruct r as [|a r].
  { right; right. exists e, vs. rewrite app_nil_r, Nat.eqb_refl. splits; auto. constructor. }
  destruct Hv as [Hv|Hv]; [|discriminate].
  replace (Nat.eqb (length pre) (length (pre ++ a :: r))) with false by len.
  rewrite skipn_app_len.
  destruct (read_hextet_spec (a :: r)) as [[Er Hh]|(g & v & r' & Eb & Hg & Er & Hr')].
  - rewrite Er. cbn [obind Nat.eqb]. rewrite nth_error_app2, Nat.sub_diag by lia. cbn [nth_error].
    destruct (Ascii.eqb_spec a ":"%char) as [->|Hna].
    + destruct e as [k|]; [left; eauto|].
      specialize (IH (pre ++ [":"%char])%list r (Some (length vs)) vs).
      assert (Ea : ((pre ++ [":"%char]) ++ r)%list = (pre ++ ":"%char :: r)%list) by (rewrite <- app_assoc; reflexivity).
      rewrite Ea in IH.
      assert (El : length (pre ++ [":"%char]) = (length pre + 1)%nat) by (rewrite app_length; reflexivity).
      rewrite El in IH. unfold stt at 1 2 3 in IH.
      destruct IH as [(m & H)|[(st & H & Hlt)|(e' & vs' & H & Hs & H8 & Hb' & He')]];
        [simpl in Hf; lia|auto|exact Hv8|exact Hb|simpl; lia| | |].
      * left. exists m. exact H.
      * right; left. exists st. split; [exact H|exact Hlt].
      * right; right. exists e', vs'. split; [exact H|]. split; [constructor; exact Hs|auto].
    + left. eexists.
      destruct a as [[] [] [] [] [] [] [] []]; try reflexivity; exfalso; apply Hna; reflexivity.
  - rewrite Er. cbn [obind].
    destruct (group_head _ _ Hg) as (a' & g' & Eg & _).
    assert (Hgl : (1 <= String.length g)%nat) by (rewrite Eg; simpl; lia).
    replace (Nat.eqb (String.length g) 0) with false by lia.
    rewrite set_idx by exact Hv. cbn [obind]. rewrite Eb.
    assert (Hb' : Forall (fun x => x < 65536) (vs ++ [v])).
    { apply Forall_app; split; [exact Hb|]. constructor; [eapply group_text_lt; eauto|constructor]. }
    assert (He' : ell_ok e (vs ++ [v])).
    { destruct e; simpl in *; [rewrite app_length; simpl; lia|exact I]. }
    destruct r' as [|c r'].
    + right; right. exists e, (vs ++ [v])%list. rewrite app_nil_r.
      replace (Nat.eqb (length pre + String.length g) (length (pre ++ bytes_of g))) with true
        by len.
      rewrite orb_true_r. split; [|split; [constructor; auto|split; [rewrite app_length; simpl; lia|auto]]].
      unfold stt. rewrite !app_length, bytes_len. cbn [length]. reflexivity.
    + replace (Nat.eqb (length pre + String.length g) (length (pre ++ bytes_of g ++ c :: r'))) with false
        by len.
      rewrite orb_false_r.
      destruct (Nat.eqb_spec (length vs + 1) 8) as [H8|H8].
      { right; left. eexists. split; [reflexivity|]. cbn [v6_off]. rewrite !app_length, bytes_len. simpl; lia. }
      assert (En : nth_error (pre ++ bytes_of g ++ c :: r') (length pre + String.length g) = Some c).
      { rewrite app_assoc. rewrite nth_error_app2 by len.
        rewrite app_length, bytes_len, Nat.sub_diag. reflexivity. }
      rewrite En.
      destruct (Ascii.eqb_spec c ":"%char) as [->|Hnc].
      * specialize (IH (pre ++ bytes_of g ++ [":"%char])%list r' e (vs ++ [v])%list).
        assert (Ea : ((pre ++ bytes_of g ++ [":"%char]) ++ r')%list = (pre ++ bytes_of g ++ ":"%char :: r')%list)
          by (rewrite <- !app_assoc; reflexivity).
        rewrite Ea in IH.
        assert (El : length (pre ++ bytes_of g ++ [":"%char]) = (length pre + String.length g + 1)%nat)
          by len.
        rewrite El in IH. unfold stt at 1 2 3 in IH. 
        assert (Lv : length (vs ++ [v]) = (length vs + 1)%nat) by (rewrite app_length; reflexivity).
        rewrite Lv in IH |- *.
        destruct IH as [(m & H)|[(st & H & Hlt)|(e' & vs' & H & Hs & H8' & Hb2 & He2)]].
        -- assert (L : length (a :: r) = length (bytes_of g ++ ":"%char :: r')) by congruence.
           rewrite app_length, bytes_len in L. simpl in L, Hf. lia.
        -- left; lia.
        -- lia.
        -- exact Hb'.
        -- exact He'.
        -- left. exists m. exact H.
        -- right; left. exists st. split; [exact H|exact Hlt].
        -- right; right. exists e', vs'. split; [exact H|]. split; [eapply scan_more; eauto; lia|auto].
      * destruct (Ascii.eqb_spec c "."%char) as [->|Hnd].
        -- destruct (ipv4_to_u32_bytes _) as [ip|m]; [|left; eauto].
           right; left. replace (length vs + 1 - 1)%nat with (length vs) by lia.
           replace (8 - length (vs ++ [v]))%nat with (S (8 - length (vs ++ [v; v])))%nat by len.
           cbn [repeat]. rewrite <- (app_assoc vs). cbn [app]. rewrite set_nth_app. cbn [obind].
           replace (length vs + 1)%nat with (length (vs ++ [N.shiftr (N.land ip 4294901760) 16])%list) by (rewrite app_length; reflexivity).
           change (N.shiftr (N.land ip 4294901760) 16 :: 0 :: repeat 0 (8 - length (vs ++ [v; v])))%list
             with ([N.shiftr (N.land ip 4294901760) 16] ++ 0 :: repeat 0 (8 - length (vs ++ [v; v])))%list.
           rewrite (app_assoc vs). rewrite set_nth_app. cbn [obind].
           eexists. split; [reflexivity|]. cbn [v6_off]. rewrite !app_length, bytes_len. simpl; lia.
        -- left. eexists.
           destruct c as [[] [] [] [] [] [] [] []]; try reflexivity; exfalso; first [apply Hnc; reflexivity | apply Hnd; reflexivity].
Qed.
