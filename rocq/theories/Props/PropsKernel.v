(** C43, C44, C45, C57, C71, C72: kernel notifications and messages, state storage, commands and tasks. *)
From Coq Require Import String Ascii NArith ZArith List Bool Arith Lia.
From Verif Require Import Base.Ord Base.BTree Base.Outcome Base.Arith Model.Ip Model.Field Model.Log Model.Command Model.Err
  Model.Datasets Model.Component Model.KernelMessage Model.Storage Spec.KernelSpec Spec.StorageSpec Proofs.KernelP Proofs.StorageP.
Import ListNotations.
Local Open Scope string_scope.
Local Open Scope list_scope.

(** * C43 *)

(** One more call, in any history: the notification it asks for is delivered, at the end, exactly if the level of the messager
    as set last (and the maximum level, for the macros) lets it pass, the channel has room and the kernel
    listens. Otherwise nothing changes. *)
Theorem C43_delivered_iff : forall P capacity (ops : list (kop P)) o m,
  asks (view_after ops) o m ->
  ~ In KHangUp ops -> length (queue (kchan (krun capacity ops))) < capacity ->
  delivered (krun capacity (ops ++ [o])) = delivered (krun capacity ops) ++ [m].
Proof.
  intros P capacity ops o m A H R. apply (deliver_asked _ _ _ _ A). destruct (chan_shape capacity ops) as [C AL].
  split; [apply AL, H|]. rewrite C. exact R.
Qed.
Theorem C43_otherwise_not : forall P capacity (ops : list (kop P)) o,
  (forall m, ~ asks (view_after ops) o m) \/ In KHangUp ops \/ capacity <= length (queue (kchan (krun capacity ops))) ->
  delivered (krun capacity (ops ++ [o])) = delivered (krun capacity ops).
Proof.
  intros P capacity ops o D. apply deliver_not_asked. destruct (chan_shape capacity ops) as [C AL].
  destruct D as [D|[D|D]]; [left; exact D| |]; right; intros [X Y]; [apply AL in X; contradiction|lia].
Qed.

(** A whole history in which the channel never fills up and the kernel listens: what is delivered is exactly the
    notifications whose levels let them pass, in order; and every history has such an answer. *)
Theorem C43_history : forall P (ops : list (kop P)), exists ms, wanted ops ms /\
  forall capacity, length ops <= capacity -> ~ In KHangUp ops -> delivered (krun capacity ops) = ms.
Proof.
  intros P ops. destruct (wanted_total ops) as [ms W]. exists ms. split; auto. intros c L H. exact (wanted_delivered c ops ms W L H).
Qed.

(** Each method notifies at its own level, when the messager lets that level pass and the kernel has room. *)
Definition methods {P} : list (level * (messager -> chan (message P) -> Z -> string -> chan (message P))) :=
  [(L_Error, k_error); (L_Warn, k_warn); (L_Info, k_info); (L_Debug, k_debug); (L_Trace, k_trace)].
Theorem C43_methods : forall P k (c : chan (message P)) t s l method, In (l, method) methods ->
  alive c = true -> length (queue c) < cap c ->
  (at_most l (k_level k) -> method k c t s = Chan (cap c) (queue c ++ [MNotification (Notif t (k_id k) (k_name k) s l)]) true) /\
  (~ at_most l (k_level k) -> method k c t s = c).
Proof.
  intros P k c t s l method I A R.
  assert (E : method k c t s = k_send k c t s l).
  { cbn in I. repeat destruct I as [[= <- <-]|I]; try reflexivity. destruct I. }
  rewrite E, at_most_spec. unfold k_send. rewrite level_ltb_leb. destruct (level_leb l (k_level k)); cbn [negb]; split; intros H; try congruence.
  unfold Datasets.try_send. rewrite A. apply Nat.ltb_lt in R. rewrite R. reflexivity.
Qed.
(** The maximum level is always a level (so reading it back is defined). *)
Theorem C43_max_level_valid : forall P capacity (ops : list (kop P)), exists l, max_level (kmax (krun capacity ops)) = Some l.
Proof. intros. apply kmax_valid. Qed.

(** [enabled_level] says whether a macro of that level can be delivered at all *)
Theorem C43_enabled_level : forall P (ops : list (kop P)) capacity l,
  enabled_level (kmax (krun capacity ops)) l = true <-> at_most l (mx (view_after ops)).
Proof.
  intros P ops capacity l. destruct (agree_run capacity ops) as (_ & _ & M). rewrite at_most_spec. unfold enabled_level, level_leb.
  assert (kmax (krun capacity ops) = level_index (mx (view_after ops))) as ->; [|tauto].
  destruct (kmax (krun capacity ops)) as [|[|[|[|[|[|n]]]]]]; simpl in M; inversion M; reflexivity.
Qed.

(** A new messager lets notifications up to the level Info pass, under its identifier and name; so does the default one, under
    the identifier 0 and no name, but nobody receives from its channel: whatever it is used for, nothing happens. *)
Theorem C43_new : forall id name,
  (forall l, at_most l (k_level (messager_new id name)) <-> In l [L_Off; L_Error; L_Warn; L_Info])
  /\ k_id (messager_new id name) = id /\ k_name (messager_new id name) = name
  /\ messager_default = messager_new 0 "" /\ forall P (c : chan (message P)) t s l, alive c = false -> k_log messager_default c t s l = c.
Proof.
  intros id name. splits; try reflexivity.
  - intros l. rewrite at_most_spec. cbn. destruct l; cbn; split; intros H; try discriminate H; try tauto;
      repeat (destruct H as [H|H]; [try discriminate H|]); try reflexivity; contradiction.
  - intros P c t s l A. unfold k_log, k_send. destruct (level_ltb _ _); [reflexivity|]. unfold Datasets.try_send. rewrite A. reflexivity.
Qed.
Print Assumptions C43_new.

Definition P0 : payloads := Payloads unit unit unit unit.
Example C43_case :
  delivered (krun (P := P0) 3 [KNew 1 "c"; KNotify 0 10 "a" L_Info; KNotify 0 11 "b" L_Debug; KClone 0; KSetLevel 1 L_Trace;
     KNotify 0 12 "c" L_Debug; KNotify 1 13 "d" L_Debug; KSetMax L_Warn; KMacro 1 14 "e" L_Info; KMacro 1 15 "f" L_Error;
     KNotify 1 16 "g" L_Error; KRecv; KSetLevel 1 L_Off; KNotify 1 17 "h" L_Error; KNotify 0 18 "i" L_Info])
  = [MNotification (Notif 10 1 "c" "a" L_Info); MNotification (Notif 13 1 "c" "d" L_Debug);
     MNotification (Notif 15 1 "c" "f" L_Error); MNotification (Notif 18 1 "c" "i" L_Info)].
Proof. reflexivity. Qed.
Example C43_case_asks : asks (P := P0) (view_after (P := P0) [KNew 1 "c"]) (KMacro 0 7 "x" L_Warn) (MNotification (Notif 7 1 "c" "x" L_Warn)).
Proof. unfold asks. split; [apply le_n|]. split; [apply at_most_spec; reflexivity|]. split; [apply at_most_spec; reflexivity|reflexivity]. Qed.

(** * C71: messages to the kernel *)

(** [try_send]: the message is put at the end of the channel and [Ok] returned exactly if there is room and a
    receiver; otherwise the channel is unchanged and the error says which of the two is missing. *)
Theorem C71_try_send : forall P (c : chan (message P)) m,
  (alive c = true /\ length (queue c) < cap c -> k_try_send c m = (Chan (cap c) (queue c ++ [m]) true, Ok tt))
  /\ (alive c = true /\ cap c <= length (queue c) -> k_try_send c m = (c, Err (E_Messaging MFull)))
  /\ (alive c = false -> k_try_send c m = (c, Err (E_Messaging MDisconnected))).
Proof.
  intros P c m. unfold k_try_send, try_send. splits.
  - intros [-> L]. apply Nat.ltb_lt in L. rewrite L. reflexivity.
  - intros [-> L]. apply Nat.ltb_ge in L. rewrite L. reflexivity.
  - intros ->. reflexivity.
Qed.
(** [send] waits for room; [send_timeout] waits at most until the time is up. *)
Theorem C71_send : forall P (c : chan (message P)) m,
  (alive c = true /\ length (queue c) < cap c -> k_send_msg c m = Some (Chan (cap c) (queue c ++ [m]) true, Ok tt))
  /\ (alive c = true /\ cap c <= length (queue c) -> k_send_msg c m = None)
  /\ (alive c = false -> k_send_msg c m = Some (c, Err (E_Messaging MDisconnected))).
Proof.
  intros P c m. unfold k_send_msg, send. splits.
  - intros [-> L]. apply Nat.ltb_lt in L. rewrite L. reflexivity.
  - intros [-> L]. apply Nat.ltb_ge in L. rewrite L. reflexivity.
  - intros ->. reflexivity.
Qed.
Theorem C71_send_timeout : forall P (c : chan (message P)) m time_up,
  (alive c = true /\ length (queue c) < cap c -> k_send_timeout c m time_up = Some (Chan (cap c) (queue c ++ [m]) true, Ok tt))
  /\ (alive c = true /\ cap c <= length (queue c) ->
      k_send_timeout c m time_up = if time_up then Some (c, Err (E_Messaging MTimeoutReached)) else None)
  /\ (alive c = false -> k_send_timeout c m time_up = Some (c, Err (E_Messaging MDisconnected))).
Proof.
  intros P c m b. unfold k_send_timeout, send. splits.
  - intros [-> L]. apply Nat.ltb_lt in L. rewrite L. reflexivity.
  - intros [-> L]. apply Nat.ltb_ge in L. rewrite L. reflexivity.
  - intros ->. reflexivity.
Qed.
(** What is sent as a command, task, ... arrives as that command, task, ..., with an empty header; different things
    arrive as different messages. *)
Theorem C71_conversions : forall P c t r x l n a d,
  msg_of_command (P := P) c = MCommand (Header "" 0 0) c /\ msg_of_task (P := P) t = MTask (Header "" 0 0) t
  /\ msg_of_response (P := P) r = MResponse (Header "" 0 0) r /\ msg_of_task_result (P := P) x = MTaskResult (Header "" 0 0) x
  /\ msg_of_log (P := P) l = MLog l /\ msg_of_notification (P := P) n = MNotification n /\ msg_of_alert (P := P) a = MAlert a
  /\ msg_of_dataset (P := P) d = MDataset d.
Proof. intros. splits; reflexivity. Qed.
Example C71_case : k_try_send (Chan 2 [msg_of_command (P := P0) C_DOWNLOAD_QUERY] true) (msg_of_command C_DOWNLOAD_QUERY)
  = (Chan 2 [msg_of_command C_DOWNLOAD_QUERY; msg_of_command C_DOWNLOAD_QUERY] true, Ok tt).
Proof. reflexivity. Qed.

(** * C44 *)

(** After any sequence of calls through any handles, what a handle reads under a key is what the shared key/value store
    holds: the value set last in that store by any of its clones, not counting writes without replace over an existing
    value. *)
Theorem C44_key_value_store : forall ops i key st, i < made (shared_after ops) -> read (srun ops) i = Some st ->
  get_value st key = match val (shared_after ops) (root (shared_after ops) i) key with Some v => Ok v | None => Err NotExists end.
Proof.
  intros ops i key st Hi R. destruct (read_refines false ops i) as (st' & R' & V & _); [discriminate|exact Hi|].
  rewrite R in R'. injection R' as <-. unfold get_value. rewrite V. reflexivity.
Qed.
(** Every handle made so far reads a store, and writing always succeeds. *)
Theorem C44_total : forall ops i, i < made (shared_after ops) -> exists st, read (srun ops) i = Some st
  /\ forall k v b, snd (set_value st k v b) = Ok tt.
Proof.
  intros ops i Hi. destruct (read_refines false ops i) as (st & R & _); [discriminate|exact Hi|]. exists st. split; auto.
  intros k v b. unfold set_value. destruct (_ && _)%bool; reflexivity.
Qed.
(** The storage that keeps nothing: it accepts values and whole files, and never has one. *)
Theorem C44_dummy : forall key value replace path content start stop,
  dummy_set_value key value replace = Ok tt /\ dummy_get_value key = Err NotExists /\
  dummy_set_file path content = Ok tt /\ dummy_get_file path = Err NotExists /\ dummy_get_file_size path = Err NotExists /\
  dummy_get_file_range path start stop = Err NotExists /\ dummy_set_file_range path content start stop = Err NotExists.
Proof. intros. splits; reflexivity. Qed.
(** Two handles with the same origin observe the same values. *)
Theorem C44_clones_share : forall ops i j, i < made (shared_after ops) -> j < made (shared_after ops) ->
  root (shared_after ops) i = root (shared_after ops) j -> read (srun ops) i = read (srun ops) j.
Proof.
  intros ops i j Hi Hj E. destruct (refines_run false ops) as (_ & _ & H & _); [discriminate|].
  unfold read. destruct (H i Hi) as [-> _]. destruct (H j Hj) as [-> _]. rewrite E. reflexivity.
Qed.
(** Spelled out for the last write: *)
Theorem C44_last_write : forall ops i j key v b st, i < made (shared_after ops) -> j < made (shared_after ops) ->
  root (shared_after ops) i = root (shared_after ops) j ->
  read (srun (ops ++ [SSetValue i key v b])) j = Some st ->
  get_value st key = match b, val (shared_after ops) (root (shared_after ops) i) key with
                     | false, Some old => Ok old | _, _ => Ok v end.
Proof.
  intros ops i j key v b st Hi Hj E R.
  assert (S : shared_after (ops ++ [SSetValue i key v b]) = shared_step (shared_after ops) (SSetValue i key v b))
    by (unfold shared_after; rewrite fold_left_app; reflexivity).
  cbn [shared_step] in S. destruct (Nat.ltb_spec i (made (shared_after ops))) as [_|X]; [|lia].
  rewrite (C44_key_value_store (ops ++ [SSetValue i key v b]) j key st); [| |exact R].
  - rewrite S. destruct (val (shared_after ops) (root (shared_after ops) i) key) eqn:V; [destruct b|]; cbn [root val];
      rewrite <- E, ?set_at2_same, ?String.eqb_refl; try rewrite V; auto; destruct b; reflexivity.
  - rewrite S. destruct (val (shared_after ops) (root (shared_after ops) i) key); [destruct b|]; simpl; auto.
Qed.
(** Another key, or another storage, is not affected. *)
Theorem C44_frame : forall ops i j key key' v b st st', i < made (shared_after ops) -> j < made (shared_after ops) ->
  (root (shared_after ops) i <> root (shared_after ops) j \/ key <> key') ->
  read (srun ops) j = Some st -> read (srun (ops ++ [SSetValue i key v b])) j = Some st' -> get_value st' key' = get_value st key'.
Proof.
  intros ops i j key key' v b st st' Hi Hj D R R'.
  assert (S : shared_after (ops ++ [SSetValue i key v b]) = shared_step (shared_after ops) (SSetValue i key v b))
    by (unfold shared_after; rewrite fold_left_app; reflexivity).
  cbn [shared_step] in S. destruct (Nat.ltb_spec i (made (shared_after ops))) as [_|X]; [|lia].
  rewrite (C44_key_value_store ops j key' st Hj R).
  rewrite (C44_key_value_store (ops ++ [SSetValue i key v b]) j key' st'); [| |exact R'].
  - rewrite S. assert (K : set_at2 (val (shared_after ops)) (root (shared_after ops) i) key (Some v) (root (shared_after ops) j) key'
        = val (shared_after ops) (root (shared_after ops) j) key').
    { unfold set_at2. destruct (Nat.eqb_spec (root (shared_after ops) j) (root (shared_after ops) i)) as [E|E]; [|reflexivity].
      destruct (String.eqb_spec key' key) as [E'|E']; [|reflexivity]. exfalso. destruct D; congruence. }
    destruct (val (shared_after ops) (root (shared_after ops) i) key); [destruct b|]; cbn [root val]; rewrite ?K; reflexivity.
  - rewrite S. destruct (val (shared_after ops) (root (shared_after ops) i) key); [destruct b|]; simpl; auto.
Qed.
Example C44_case : option_map (fun st => (get_value st "k", get_value st "j")) (read (srun [SNew; SClone 0; SNew; SSetValue 0 "k" "1" false;
    SSetValue 1 "k" "2" false; SSetValue 1 "j" "3" true; SSetValue 2 "k" "9" true; SSetValue 0 "j" "4" true]) 1) = Some (Ok "1", Ok "4").
Proof. reflexivity. Qed.

(** * C45 *)

(** Reading a range should return the bytes of the range for every range within the file. It fails for the ranges that
    reach the end of the file: *)
Theorem C117_read_range_refuted : exists st path f, get_file st path = Ok f /\ f <> [] /\
  get_file_range st path 0 (N.of_nat (length f)) = Err ConnectionError.
Proof. exists (Store [("a", ["x"; "y"]%char)] []), "a", ["x"; "y"]%char. splits; [reflexivity|discriminate|reflexivity]. Qed.
(** ... always: *)
Theorem C117_read_to_end_always_fails_refuted : forall st path f start, get_file st path = Ok f ->
  get_file_range st path start (N.of_nat (length f)) = Err ConnectionError.
Proof.
  intros st path f start G. unfold get_file, get_file_range in *. destruct (bt_get path (files st)); inversion G; subst.
  rewrite (N.leb_refl (N.of_nat (length f))), orb_true_r. reflexivity.
Qed.
(** For the ranges that end before the last byte it holds. *)
Theorem C45_read_range : forall st path f start stop, get_file st path = Ok f ->
  (start <= stop)%N -> (stop < N.of_nat (length f))%N ->
  exists bytes, get_file_range st path start stop = Ok bytes /\ N.of_nat (length bytes) = (stop - start)%N
    /\ forall j, j < length bytes -> nth_error bytes j = nth_error f (N.to_nat start + j).
Proof.
  intros st path f start stop G L1 L2. unfold get_file, get_file_range in *. destruct (bt_get path (files st)); inversion G; subst.
  destruct (N.leb_spec (N.of_nat (length f)) start); [lia|]. destruct (N.leb_spec (N.of_nat (length f)) stop); [lia|].
  destruct (N.ltb_spec stop start); [lia|]. eexists. split; [reflexivity|].
  assert (LEN : length (firstn (N.to_nat (stop - start)) (skipn (N.to_nat start) f)) = N.to_nat (stop - start)).
  { rewrite firstn_length, skipn_length. lia. }
  split; [rewrite LEN; lia|]. rewrite LEN. intros j Hj. rewrite nth_firstn by exact Hj. apply nth_skipn.
Qed.
(** Every other range of an existing file is refused, and a missing file is reported; nothing panics. *)
Theorem C45_read_range_errors : forall st path start stop,
  (get_file st path = Err NotExists -> get_file_range st path start stop = Err NotExists)
  /\ (forall f, get_file st path = Ok f -> (stop < start)%N \/ (N.of_nat (length f) <= stop)%N ->
        get_file_range st path start stop = Err ConnectionError).
Proof.
  intros st path start stop. unfold get_file, get_file_range. split.
  - destruct (bt_get path (files st)); [discriminate|reflexivity].
  - intros f. destruct (bt_get path (files st)); intro G; inversion G; subst. intros [H|H].
    + apply N.ltb_lt in H. rewrite H, orb_true_r. reflexivity.
    + apply N.leb_le in H. rewrite H, orb_true_r. reflexivity.
Qed.
(** Writing a range should change exactly that range. It replaces the whole file: *)
Theorem C117_write_range_refuted : exists f content start stop, (start + N.of_nat (length content) = stop)%N /\ (stop < N.of_nat (length f))%N /\
  forall st path, get_file (fst (set_file_range (fst (set_file st path f)) path content start stop)) path = Ok content
    /\ content <> splice f content start stop.
Proof.
  exists ["a"; "b"; "c"; "d"]%char, ["X"]%char, 1%N, 2%N. splits; [reflexivity|reflexivity|]. intros st path. split; [|discriminate].
  unfold get_file, set_file_range, set_file. cbn [fst files]. rewrite bt_get_insert_eq. reflexivity.
Qed.
(** Whole files behave as expected: through any clone, a file has the content written last, and its size. *)
Theorem C45_whole_files : forall ops i path st, whole_files ops -> i < made (shared_after ops) -> read (srun ops) i = Some st ->
  get_file st path = match fil (shared_after ops) (root (shared_after ops) i) path with Some f => Ok f | None => Err NotExists end
  /\ get_file_size st path = match fil (shared_after ops) (root (shared_after ops) i) path with
                             | Some f => Ok (N.of_nat (length f)) | None => Err NotExists end.
Proof.
  intros ops i path st W Hi R. destruct (read_refines true ops i) as (st' & R' & _ & F); [auto|exact Hi|].
  rewrite R in R'. injection R' as <-. unfold get_file, get_file_size. rewrite (F eq_refl). split; reflexivity.
Qed.
Example C45_case : get_file_range (Store [("a", ["x"; "y"; "z"]%char)] []) "a" 1 2 = Ok ["y"%char].
Proof. reflexivity. Qed.
Example C45_case_whole : option_map (fun st => get_file st "f") (read (srun [SNew; SClone 0; SSetFile 0 "f" ["a"%char]; SSetFile 1 "f" ["b"%char]]) 0)
  = Some (Ok ["b"%char]).
Proof. reflexivity. Qed.

(** * C57 *)

(** The name of a command, and that of a function type *)
Definition command_name (c : siem_command_call) : string :=
  match c with
  | C_START_COMPONENT _ => "START_COMPONENT" | C_STOP_COMPONENT _ => "STOP_COMPONENT" | C_LOG_QUERY _ => "LOG_QUERY"
  | C_ISOLATE_IP _ => "ISOLATE_IP" | C_ISOLATE_ENDPOINT _ => "ISOLATE_ENDPOINT" | C_FILTER_IP _ => "FILTER_IP"
  | C_FILTER_DOMAIN _ => "FILTER_DOMAIN" | C_FILTER_EMAIL_SENDER _ => "FILTER_EMAIL_SENDER" | C_LIST_USE_CASES _ => "LIST_USE_CASES"
  | C_GET_USE_CASE _ => "GET_USE_CASE" | C_LIST_RULES _ => "LIST_RULES" | C_GET_RULE _ => "GET_RULE" | C_LIST_DATASETS _ => "LIST_DATASETS"
  | C_LIST_TASKS _ => "LIST_TASKS" | C_DOWNLOAD_QUERY => "DOWNLOAD_QUERY" | C_LIST_PARSERS _ => "LIST_PARSERS" | C_LOGIN_USER _ => "LOGIN_USER"
  | C_START_TASK _ => "START_TASK" | C_GET_TASK_RESULT _ => "GET_TASK_RESULT" | C_OTHER _ _ => "OTHER"
  end.
Definition custom_name (c : siem_command_call) : option string := match c with C_OTHER n _ => Some n | _ => None end.
Definition function_name (f : siem_function_type) : string :=
  match f with
  | F_STOP_COMPONENT => "STOP_COMPONENT" | F_START_COMPONENT => "START_COMPONENT" | F_LOG_QUERY => "LOG_QUERY" | F_ISOLATE_IP => "ISOLATE_IP"
  | F_ISOLATE_ENDPOINT => "ISOLATE_ENDPOINT" | F_FILTER_IP => "FILTER_IP" | F_FILTER_DOMAIN => "FILTER_DOMAIN"
  | F_FILTER_EMAIL_SENDER => "FILTER_EMAIL_SENDER" | F_LIST_USE_CASES => "LIST_USE_CASES" | F_GET_USE_CASE => "GET_USE_CASE"
  | F_LIST_RULES => "LIST_RULES" | F_GET_RULE => "GET_RULE" | F_LIST_TASKS => "LIST_TASKS" | F_LIST_DATASETS => "LIST_DATASETS"
  | F_DOWNLOAD_QUERY => "DOWNLOAD_QUERY" | F_LOGIN_USER => "LOGIN_USER" | F_LIST_PARSERS => "LIST_PARSERS" | F_START_TASK => "START_TASK"
  | F_GET_TASK_RESULT => "GET_TASK_RESULT" | F_OTHER _ => "OTHER"
  end.
Theorem C57_same_name : forall c, function_name (get_type c) = command_name c
  /\ forall n, custom_name c = Some n <-> get_type c = F_OTHER n.
Proof. intro c. split; [destruct c; reflexivity|]. intro n. destruct c; simpl; split; congruence. Qed.
Theorem C57_type_identifies_kind : forall c d, get_type c = get_type d <-> command_name c = command_name d /\ custom_name c = custom_name d.
Proof. intros c d. split; [destruct c, d; simpl; intro H; try discriminate H; split; congruence|destruct c, d; simpl; intros [H K]; try discriminate H; congruence]. Qed.
(** Every function type is that of some command. *)
Theorem C57_every_type_reachable : forall f, exists c, get_type c = f.
Proof.
  pose (p := Pagination 0 0).
  intro f; destruct f; [exists (C_STOP_COMPONENT "")|exists (C_START_COMPONENT "")|exists (C_LOG_QUERY (query_new ""))
    |exists (C_ISOLATE_IP (Commented (V4 0) ""))|exists (C_ISOLATE_ENDPOINT (Commented "" ""))|exists (C_FILTER_IP (Commented (V4 0) ""))
    |exists (C_FILTER_DOMAIN (Commented "" ""))|exists (C_FILTER_EMAIL_SENDER (Commented "" ""))|exists (C_LIST_USE_CASES p)
    |exists (C_GET_USE_CASE "")|exists (C_LIST_RULES p)|exists (C_GET_RULE "")|exists (C_LIST_TASKS p)|exists (C_LIST_DATASETS p)
    |exists C_DOWNLOAD_QUERY|exists (C_LOGIN_USER (LApiKey ""))|exists (C_LIST_PARSERS p)
    |exists (C_START_TASK (Task 0 0 "" 0 TD_UPDATE_GEOIP))|exists (C_GET_TASK_RESULT 0)|exists (C_OTHER name [])]; reflexivity.
Qed.
Example C57_case : get_type (C_OTHER "x" [("a", "b")]) = get_type (C_OTHER "x" []) /\ get_type (C_OTHER "x" []) <> get_type (C_OTHER "y" []).
Proof. split; [reflexivity|discriminate]. Qed.

(** * C72: task types *)

Definition task_kind (d : siem_task_data) : string :=
  match d with
  | TD_EXECUTE_ENDPOINT_SCRIPT _ _ => "EXECUTE_ENDPOINT_SCRIPT" | TD_REMEDIATE_EMAILS _ => "REMEDIATE_EMAILS" | TD_REPORT_ABUSE _ => "REPORT_ABUSE"
  | TD_UPDATE_GEOIP => "UPDATE_GEOIP" | TD_UPDATE_CLOUD_PROVIDER => "UPDATE_CLOUD_PROVIDER" | TD_OTHER _ _ => "OTHER"
  end.
Definition task_custom (d : siem_task_data) : option string := match d with TD_OTHER n _ => Some n | _ => None end.

(** The type of a task identifies its kind (and its name, for custom tasks), and prints as that name. *)
Theorem C72_task_type : forall d e,
  (task_class d = task_class e <-> task_kind d = task_kind e /\ task_custom d = task_custom e)
  /\ task_type_str (task_class d) = match task_custom d with Some n => n | None => task_kind d end.
Proof.
  intros d e. split; [|destruct d; reflexivity].
  split; [destruct d, e; simpl; intro H; try discriminate H; split; congruence|destruct d, e; simpl; intros [H K]; try discriminate H; congruence].
Qed.
(** The printed name alone identifies the type. It does not: a custom task may have the name of a predefined one. *)
Theorem C134_printed_name_identifies_refuted : exists t u, t <> u /\ task_type_str t = task_type_str u.
Proof. exists TT_UPDATE_GEOIP, (TT_OTHER "UPDATE_GEOIP"). split; [discriminate|reflexivity]. Qed.
(** It does when custom names avoid the predefined ones. *)
Theorem C72_printed_name_identifies : forall t u,
  (forall n, t = TT_OTHER n \/ u = TT_OTHER n ->
     ~ In n ["EXECUTE_ENDPOINT_SCRIPT"; "REMEDIATE_EMAILS"; "REPORT_ABUSE"; "UPDATE_GEOIP"; "UPDATE_CLOUD_PROVIDER"]) ->
  task_type_str t = task_type_str u -> t = u.
Proof.
  intros t u A E. destruct t, u; simpl in E; try discriminate E; try reflexivity; try congruence; subst; exfalso;
    (eapply A; [(left; reflexivity) || (right; reflexivity)|simpl; tauto]).
Qed.
Example C72_case : task_type_str (task_class (TD_OTHER "scan" [])) = "scan".
Proof. reflexivity. Qed.

Print Assumptions C43_methods.
Print Assumptions C44_dummy.
Print Assumptions C43_delivered_iff.
Print Assumptions C43_otherwise_not.
Print Assumptions C43_history.
Print Assumptions C43_max_level_valid.
Print Assumptions C43_enabled_level.
Print Assumptions C71_try_send.
Print Assumptions C71_send.
Print Assumptions C71_send_timeout.
Print Assumptions C71_conversions.
Print Assumptions C44_key_value_store.
Print Assumptions C44_total.
Print Assumptions C44_clones_share.
Print Assumptions C44_last_write.
Print Assumptions C44_frame.
Print Assumptions C117_read_range_refuted.
Print Assumptions C117_read_to_end_always_fails_refuted.
Print Assumptions C45_read_range.
Print Assumptions C45_read_range_errors.
Print Assumptions C117_write_range_refuted.
Print Assumptions C45_whole_files.
Print Assumptions C57_same_name.
Print Assumptions C57_type_identifies_kind.
Print Assumptions C57_every_type_reachable.
Print Assumptions C72_task_type.
Print Assumptions C134_printed_name_identifies_refuted.
Print Assumptions C72_printed_name_identifies.

(** * C169: new queries and headers *)
(** A new query asks, in the storage's own language, for the first 128 rows with all fields, for every time from 1970 on
    that fits 64 bits and for no earlier time; its results are kept for an hour; no user and no earlier query are named. *)
Theorem C169_query : forall text, let q := query_new text in
  q_query q = text /\ q_is_native q = true /\ q_user q = ""%string /\ q_query_id q = None /\ q_fields q = [] /\
  (q_offset q = 0 /\ q_limit q = 128)%N /\ (q_ttl q = 60 * 60 * 1000)%Z /\
  forall t, (- 2 ^ 63 <= t < 2 ^ 63 -> (q_from q <= t <= q_to q <-> 0 <= t))%Z.
Proof. intros text q. subst q. unfold query_new. cbn [q_query q_is_native q_user q_query_id q_fields q_offset q_limit q_ttl q_from q_to]. splits; try reflexivity; intros; lia. Qed.
Print Assumptions C169_query.
Theorem C169_headers : forall user a b,
  header_new user a b = Header user a b /\ header_for_user user = Header user 0 0 /\ header_default = Header "" 0 0.
Proof. intros. splits; reflexivity. Qed.
Print Assumptions C169_headers.
