(** Model of src/components/storage.rs. Files are lists of bytes; offsets are [u64], [usize] is 64 bits wide. *)
From Coq Require Import String Ascii NArith List Bool.
From Verif Require Import Base.Ord Base.BTree Base.Outcome Model.Err.
Import ListNotations.

(** storage.rs:102-115 [TestingStorage]: what the two [Arc<Mutex<..>>] of a storage and of its clones point to *)
Record store := Store { files : bt string (list ascii); values : bt string string }.
Definition store_new : store := Store [] [].

(** storage.rs:118-121 *)
Definition get_value (s : store) (key : string) : result string storage_error :=
  match bt_get key (values s) with Some v => Ok v | None => Err NotExists end.
(** storage.rs:123-135 *)
Definition set_value (s : store) (key value : string) (replace : bool) : store * result unit storage_error :=
  if andb (negb replace) (bt_has key (values s)) then (s, Ok tt)
  else (Store (files s) (bt_insert key value (values s)), Ok tt).
(** storage.rs:137-141 *)
Definition get_file (s : store) (path : string) : result (list ascii) storage_error :=
  match bt_get path (files s) with Some f => Ok f | None => Err NotExists end.
(** storage.rs:143-147 *)
Definition get_file_size (s : store) (path : string) : result N storage_error :=
  match bt_get path (files s) with Some f => Ok (N.of_nat (length f)) | None => Err NotExists end.
(** storage.rs:149-163. The slice [file[start..end]] is in range after the test of line 159. *)
Definition get_file_range (s : store) (path : string) (start stop : N) : result (list ascii) storage_error :=
  match bt_get path (files s) with
  | None => Err NotExists
  | Some f =>
      let len := N.of_nat (length f) in
      if (len <=? start)%N || (len <=? stop)%N || (stop <? start)%N then Err ConnectionError
      else Ok (firstn (N.to_nat (stop - start)) (skipn (N.to_nat start) f))
  end.
(** storage.rs:165-169 *)
Definition set_file (s : store) (path : string) (content : list ascii) : store * result unit storage_error :=
  (Store (bt_insert path content (files s)) (values s), Ok tt).
(** storage.rs:171-181 *)
Definition set_file_range (s : store) (path : string) (content : list ascii) (start stop : N) : store * result unit storage_error :=
  (Store (bt_insert path content (files s)) (values s), Ok tt).

(** storage.rs:51-99 [DummyStateStorage] keeps nothing *)
Definition dummy_get_value (key : string) : result string storage_error := Err NotExists.
Definition dummy_set_value (key value : string) (replace : bool) : result unit storage_error := Ok tt.
Definition dummy_get_file (path : string) : result (list ascii) storage_error := Err NotExists.
Definition dummy_get_file_size (path : string) : result N storage_error := Err NotExists.
Definition dummy_get_file_range (path : string) (start stop : N) : result (list ascii) storage_error := Err NotExists.
Definition dummy_set_file (path : string) (content : list ascii) : result unit storage_error := Ok tt.
Definition dummy_set_file_range (path : string) (content : list ascii) (start stop : N) : result unit storage_error := Err NotExists.

(** * Storages and their clones *)

(** [handles]: for each [TestingStorage] value made so far, which store it points to *)
Record heap := Heap { stores : list store; handles : list nat }.
Inductive sop :=
| SNew                                                     (* storage.rs:109-114 *)
| SClone (i : nat)                                         (* storage.rs:102 [derive(Clone)], 183-185 [duplicate] *)
| SSetValue (i : nat) (key value : string) (replace : bool)
| SSetFile (i : nat) (path : string) (content : list ascii)
| SSetFileRange (i : nat) (path : string) (content : list ascii) (start stop : N).

Definition on_store (h : heap) (i : nat) (f : store -> store) : heap :=
  match nth_error (handles h) i with
  | Some r =>
      match nth_error (stores h) r with
      | Some s => Heap (firstn r (stores h) ++ f s :: skipn (S r) (stores h)) (handles h)
      | None => h
      end
  | None => h
  end.
Definition sstep (h : heap) (o : sop) : heap :=
  match o with
  | SNew => Heap (stores h ++ [store_new]) (handles h ++ [length (stores h)])
  | SClone i => match nth_error (handles h) i with Some r => Heap (stores h) (handles h ++ [r]) | None => h end
  | SSetValue i k v b => on_store h i (fun s => fst (set_value s k v b))
  | SSetFile i p c => on_store h i (fun s => fst (set_file s p c))
  | SSetFileRange i p c a b => on_store h i (fun s => fst (set_file_range s p c a b))
  end.
Definition srun (ops : list sop) : heap := fold_left sstep ops (Heap [] []).
(** The store a handle reads *)
Definition read (h : heap) (i : nat) : option store :=
  match nth_error (handles h) i with Some r => nth_error (stores h) r | None => None end.
