(** Character boundaries of UTF-8 texts. *)
From Coq Require Import String Ascii NArith List Bool Lia Arith.
From Verif Require Import Base.Arith Base.Str Base.Outcome Model.Sigma Spec.Utf8Spec Spec.SigmaSpec Proofs.SigmaP.
Import ListNotations.
Local Open Scope string_scope.
Local Open Scope list_scope.

Lemma bytes_app a b : bytes (a ++ b) = append (bytes a) (bytes b).
Proof. unfold bytes. rewrite map_app. induction (map ascii_of_N a); cbn; congruence. Qed.
Lemma text_app a b : text (a ++ b) = append (text a) (text b).
Proof. unfold text. rewrite flat_map_app. apply bytes_app. Qed.
Lemma text_cons c cs : text (c :: cs) = append (bytes (utf8 c)) (text cs).
Proof. unfold text. cbn [flat_map]. apply bytes_app. Qed.

Fixpoint all_cont (s : string) : Prop := match s with "" => True | String c r => is_cont c = true /\ all_cont r end.
Lemma cont_byte n : (n < 256)%N -> is_cont (ascii_of_N n) = ((128 <=? n) && (n <? 192))%N.
Proof. intros H. unfold is_cont. rewrite N_ascii_embedding by exact H. reflexivity. Qed.
Lemma char_shape c : scalar c -> exists d t, bytes (utf8 c) = String d t /\ is_cont d = false /\ all_cont t /\ (t = "" <-> (c < 128)%N) /\ (c < 128 -> d = ascii_of_N c)%N.
Proof.
  intros H. unfold utf8, bytes. unfold scalar in H.
  destruct (N.ltb_spec c 128) as [A|A]; cbn [map string_of_list_ascii].
  { exists (ascii_of_N c), "". splits; auto; [|exact I|tauto]. rewrite cont_byte by lia. destruct (N.leb_spec 128 c); [lia|reflexivity]. }
  assert (M : forall k, (128 + k mod 64 < 192)%N /\ (128 <= 128 + k mod 64)%N) by (intros k; pose proof (N.mod_lt k 64); lia).
  assert (CT : forall k, is_cont (ascii_of_N (128 + k mod 64)) = true).
  { intros k. pose proof (M k) as [X Y]. rewrite cont_byte by lia. destruct (N.leb_spec 128 (128 + k mod 64)); [|lia]. destruct (N.ltb_spec (128 + k mod 64) 192); [reflexivity|lia]. }
  assert (LD : forall k, (192 <= k < 256)%N -> is_cont (ascii_of_N k) = false).
  { intros k K. rewrite cont_byte by lia. destruct (N.ltb_spec k 192); [lia|]. apply andb_false_r. }
  destruct (N.ltb_spec c 2048) as [B|B]; [|destruct (N.ltb_spec c 65536) as [D|D]]; cbn [map string_of_list_ascii].
  - exists (ascii_of_N (192 + c / 64)), (String (ascii_of_N (128 + c mod 64)) ""). splits; [reflexivity| | |split; [discriminate|lia]|lia].
    + apply LD. assert (c / 64 < 32)%N by (apply N.div_lt_upper_bound; lia). lia.
    + cbn [all_cont]. auto.
  - exists (ascii_of_N (224 + c / 4096)), (String (ascii_of_N (128 + c / 64 mod 64)) (String (ascii_of_N (128 + c mod 64)) "")). splits; [reflexivity| | |split; [discriminate|lia]|lia].
    + apply LD. assert (c / 4096 < 16)%N by (apply N.div_lt_upper_bound; lia). lia.
    + cbn [all_cont]. auto.
  - exists (ascii_of_N (240 + c / 262144)), (String (ascii_of_N (128 + c / 4096 mod 64)) (String (ascii_of_N (128 + c / 64 mod 64)) (String (ascii_of_N (128 + c mod 64)) ""))).
    splits; [reflexivity| | |split; [discriminate|lia]|lia].
    + apply LD. assert (c / 262144 < 5)%N by (apply N.div_lt_upper_bound; lia). lia.
    + cbn [all_cont]. auto.
Qed.
Lemma text_head cs : Forall scalar cs -> head_ok (text cs).
Proof.
  intros H. destruct H as [|c cs H _]; [reflexivity|]. rewrite text_cons. destruct (char_shape c H) as (d & t & -> & D & _). exact D.
Qed.
Lemma byte_at_app_r n a b : byte_at (String.length a + n) (append a b) = byte_at n b.
Proof. induction a; cbn; auto. Qed.
Lemma byte_at_app_l n a b : n < String.length a -> byte_at n (append a b) = byte_at n a.
Proof. revert n. induction a as [|c a IH]; cbn; intros n H; [lia|]. destruct n; [reflexivity|]. apply IH. lia. Qed.
Lemma all_cont_at n t : all_cont t -> n < String.length t -> exists c, byte_at n t = Some c /\ is_cont c = true.
Proof. revert n. induction t as [|c t IH]; cbn; intros n H L; [lia|]. destruct H as [H1 H2]. destruct n; [exists c; split; [reflexivity|exact H1]|]. apply IH; [exact H2|lia]. Qed.

Theorem boundaries cs n : Forall scalar cs -> (is_boundary n (text cs) = true <-> exists l r, cs = l ++ r /\ n = String.length (text l)).
Proof.
  intros H. revert n. induction H as [|c cs Hc H IH]; intros n.
  - split.
    + intros B. exists [], []. split; [reflexivity|]. unfold is_boundary in B. cbn in B. destruct n; [reflexivity|]. cbn in B. discriminate B.
    + intros (l & r & E & ->). symmetry in E. apply app_eq_nil in E as [-> ->]. reflexivity.
  - destruct (char_shape c Hc) as (d & t & E & D & T & _). rewrite text_cons, E.
    destruct (Nat.lt_ge_cases n (S (String.length t))) as [L|L].
    + destruct n as [|n].
      * split; [|reflexivity]. intros _. exists [], (c :: cs). split; reflexivity.
      * split.
        -- intros B. exfalso. unfold is_boundary in B. cbn [Nat.eqb orb append byte_at String.length] in B. rewrite slen_app in B.
           assert (n < String.length t) as L' by lia. rewrite byte_at_app_l in B by exact L'. destruct (all_cont_at n t T L') as (b & Eb & Cb). rewrite Eb, Cb in B.
           cbn [negb] in B. rewrite orb_false_r in B. apply Nat.eqb_eq in B. lia.
        -- intros (l & r & Q & K). exfalso. destruct l as [|c' l]; [cbn in K; discriminate K|]. cbn [app] in Q. injection Q as <- ->.
           rewrite text_cons, E in K. cbn [append String.length] in K. rewrite slen_app in K. lia.
    + assert (X : is_boundary n (append (String d t) (text cs)) = is_boundary (n - S (String.length t)) (text cs)).
      { replace n with (String.length (String d t) + (n - S (String.length t))) at 1 by (cbn; lia). unfold is_boundary. rewrite byte_at_app_r, slen_app. cbn [String.length].
        set (k := n - S (String.length t)). destruct k as [|k].
        - rewrite Nat.add_0_r. cbn [Nat.eqb orb]. destruct H as [|c2 cs' H2 H']; [cbn [text flat_map bytes map string_of_list_ascii String.length]; rewrite Nat.add_0_r, Nat.eqb_refl; reflexivity|].
          rewrite text_cons. destruct (char_shape c2 H2) as (d2 & t2 & -> & D2 & _). cbn [append byte_at]. rewrite D2. apply orb_true_r.
        - cbn [Nat.eqb Nat.add orb]. f_equal. replace (Nat.eqb (String.length t + S k) (String.length t + String.length (text cs))) with (Nat.eqb (S k) (String.length (text cs)));
            [reflexivity|]. destruct (Nat.eqb_spec (S k) (String.length (text cs))), (Nat.eqb_spec (String.length t + S k) (String.length t + String.length (text cs))); auto; lia. }
      rewrite X, IH. split.
      * intros (l & r & -> & K). exists (c :: l), r. split; [reflexivity|]. rewrite text_cons, E, slen_app. cbn [String.length]. lia.
      * intros (l & r & Q & K). destruct l as [|c' l]; [cbn in K; lia|]. cbn [app] in Q. injection Q as <- ->. exists l, r. split; [reflexivity|].
        rewrite text_cons, E, slen_app in K. cbn [String.length] in K. lia.
Qed.
Lemma substring_mid a b c : String.substring (String.length a) (String.length b) (append a (append b c)) = b.
Proof.
  induction a as [|x a IH]; [|exact IH]. cbn [String.length append]. induction b as [|y b IH].
  - destruct c; reflexivity.
  - cbn. f_equal. exact IH.
Qed.
Lemma prefix_text l l' r r' : Forall scalar (l ++ r) -> Forall scalar (l' ++ r') -> l ++ r = l' ++ r' -> String.length (text l) <= String.length (text l') -> exists m, l' = l ++ m.
Proof.
  revert l'. induction l as [|c l IH]; intros l' F F' E L; [exists l'; reflexivity|]. destruct l' as [|c' l'].
  - exfalso. rewrite text_cons in L. inversion F; subst. destruct (char_shape c) as (d & t & X & _); [assumption|]. rewrite X in L. cbn in L. lia.
  - cbn [app] in *. injection E as <- E. inversion F; inversion F'; subst. destruct (IH l') as (m & ->); auto.
    + rewrite !text_cons, !slen_app in L. lia.
    + exists m. reflexivity.
Qed.
Lemma slices cs a b x : Forall scalar cs ->
  (slice a b (text cs) = Val x <-> exists l m r, cs = l ++ m ++ r /\ a = String.length (text l) /\ b = String.length (text (l ++ m)) /\ x = text m).
Proof.
  intros F. unfold slice. split.
  - destruct (Nat.leb_spec a b) as [L|L]; cbn [andb]; [|discriminate]. destruct (is_boundary a (text cs)) eqn:A; cbn [andb]; [|discriminate].
    destruct (is_boundary b (text cs)) eqn:B; [|discriminate]. intros [= <-]. apply boundaries in A as (l & r & E & ->); [|exact F].
    apply boundaries in B as (l' & r' & E' & ->); [|exact F]. destruct (prefix_text l l' r r') as (m & ->); try congruence.
    exists l, m, r'. rewrite <- app_assoc in E'. splits; auto. rewrite E', !text_app, slen_app.
    replace (String.length (text l) + String.length (text m) - String.length (text l)) with (String.length (text m)) by lia. apply substring_mid.
  - intros (l & m & r & -> & -> & -> & ->). assert (A : is_boundary (String.length (text l)) (text (l ++ m ++ r)) = true) by (apply boundaries; [exact F|eauto]).
    assert (B : is_boundary (String.length (text (l ++ m))) (text (l ++ m ++ r)) = true) by (apply boundaries; [exact F|exists (l ++ m), r; rewrite app_assoc; auto]).
    rewrite A, B. rewrite !text_app, slen_app. destruct (Nat.leb_spec (String.length (text l)) (String.length (text l) + String.length (text m))); [|lia]. cbn [andb].
    replace (String.length (text l) + String.length (text m) - String.length (text l)) with (String.length (text m)) by lia. rewrite substring_mid. reflexivity.
Qed.
(** a valid text after an ASCII prefix *)
Lemma strip_ascii p x : Forall (fun c => (c < 128)%N) p -> is_text (append (text p) x) -> is_text x.
Proof.
  intros F. induction F as [|c p C F IH]; [auto|]. intros T. apply IH. clear IH. rewrite text_cons in T.
  assert (E : bytes (utf8 c) = String (ascii_of_N c) "") by (unfold utf8; destruct (N.ltb_spec c 128); [reflexivity|lia]).
  rewrite E in T. cbn [append] in T. destruct T as (cs & S & Q). destruct S as [|c' cs S1 S2]; [discriminate Q|]. rewrite text_cons in Q.
  destruct (char_shape c' S1) as (d & t & E' & D & AC & T0 & D0). rewrite E' in Q. cbn [append] in Q. injection Q as Q1 Q2.
  assert (K : (c' < 128)%N).
  { unfold utf8, bytes in E'. destruct (N.ltb_spec c' 128) as [|A]; [assumption|exfalso].
    assert (L : (N_of_ascii d < 128)%N) by (rewrite <- Q1, N_ascii_embedding; lia).
    destruct (N.ltb_spec c' 2048) as [B|B]; [|destruct (N.ltb_spec c' 65536) as [G|G]]; cbn [map string_of_list_ascii] in E'; injection E' as E1 _; rewrite <- E1 in L;
      unfold scalar in S1; rewrite N_ascii_embedding in L.
    all: assert (c' / 64 < 32 \/ 2048 <= c')%N by (destruct (N.lt_ge_cases c' 2048); [left; apply N.div_lt_upper_bound; lia|lia]).
    all: assert (c' / 4096 < 16 \/ 65536 <= c')%N by (destruct (N.lt_ge_cases c' 65536); [left; apply N.div_lt_upper_bound; lia|lia]).
    all: assert (c' / 262144 < 5)%N by (apply N.div_lt_upper_bound; lia). all: lia. }
  apply T0 in K. subst t. exists cs. split; [exact S2|exact Q2].
Qed.
Lemma string_snoc s : s = "" \/ exists t c, s = append t (str1 c).
Proof. induction s as [|c s [->|(t & d & ->)]]; [auto|right; exists "", c; reflexivity|right; exists (String c t), d; reflexivity]. Qed.
Lemma last_byte l c y b : scalar c -> text (l ++ [c]) = append y (str1 b) -> (is_cont b = false <-> (c < 128)%N) /\ ((c < 128)%N -> y = text l).
Proof.
  intros S E. rewrite text_app, text_cons in E. change (text []) with "" in E. rewrite str_app_nil_r in E. destruct (char_shape c S) as (d & t & X & D & T & K1 & K2). rewrite X in E.
  destruct (string_snoc t) as [->|(t' & e & ->)].
  - change (String d "") with (str1 d) in E. apply snoc_inj in E as [-> ->]. tauto.
  - assert (Q : append (append (text l) (String d t')) (str1 e) = append y (str1 b)) by (rewrite <- E; rewrite str_app_assoc; reflexivity).
    apply snoc_inj in Q as [_ ->].
    assert (CB : is_cont b = true) by (clear - T; induction t' as [|z t' IH]; cbn in T; [tauto|apply IH; tauto]).
    assert (N1 : ~ (c < 128)%N) by (intros H; apply K1 in H; destruct t'; discriminate H).
    split; [|contradiction]. rewrite CB. split; [discriminate|contradiction].
Qed.
