(** Model of memory that is used after the transaction it belongs to: the keys of bolt that
    [migrateBuckets] collects (src/metaserver/internal/usecase/service/hashslot_service.go
    343-393 with repo/bucket_repo.go 23-25, logic/bucket_logic.go 151-167) and those that
    [FindByHash] gets (service/metadata_service.go 205-229 with repo/hash_index_repo.go
    16-23, logic/hash_index_logic.go 41-58).  Both are slices of bolt's memory map, made into
    strings without a copy ([BytesToStr], common/util/util.go 272-275).

    bolt (trusted, from its documentation and source): what is read lies in pages of a file
    mapped into memory; a write transaction puts a changed page into a page that is not in
    use and the old page may be used again from the next write transaction on, unless a
    read transaction is still open; when the file grows it is mapped anew, the old addresses
    are gone then, and that, too, waits for open read transactions.

    Simplified: the bolt bucket in question is one leaf page (header of 16 bytes, 16 bytes for
    each element, then keys and values); the bytes of the headers are zeros; the page a
    write takes is a parameter; the cache of buckets holds nothing. *)
From Coq Require Import List Ascii Arith Bool.
From Verif Require Import Str_Model Meta_Model.
Import ListNotations.
Local Open Scope list_scope.

(** ** Pages *)

Notation item := (str * str)%type.

(** The zero byte fills what is not written (bolt allocates pages cleared). *)
Definition nul : ascii := Ascii false false false false false false false false.

(** bolt's leaf pages: header, element headers, keys and values. *)
Definition page_body (l : list item) : str := flat_map (fun i : item => fst i ++ snd i) l.
Definition render (l : list item) : str := repeat nul (16 + 16 * List.length l) ++ page_body l.

(** A slice of the memory map: which mapping, which page, where and how long. *)
Record ref := Ref { r_gen : nat; r_page : nat; r_off : nat; r_len : nat }.

(** The slices of the keys, as a cursor returns them (bucket_logic.go 157, hash_index_logic.go
    52). *)
Fixpoint key_refs (gen page off : nat) (l : list item) : list (ref * str) :=
  match l with
  | [] => []
  | (k, v) :: r => (Ref gen page off (List.length k), k) :: key_refs gen page (off + List.length k + List.length v) r
  end.

(** The bytes at a place. *)
Definition cutout (m : str) (off len : nat) : str := firstn len (skipn off m ++ repeat nul len).

(** ** bolt *)

(** What is stored, the page it is in, the memory, the pages not to be used yet, whether a
    read transaction is open all the time, and how often the file was mapped. *)
Record bolt := Bolt {
  bo_items : list item; bo_page : nat; bo_mem : nat -> str; bo_pend : list nat; bo_pinned : bool; bo_gen : nat }.

(** Reading a slice now; [None]: the address is gone and the process dies. *)
Definition deref (s : bolt) (r : ref) : option str :=
  if r_gen r =? bo_gen s then Some (cutout (bo_mem s (r_page r)) (r_off r) (r_len r)) else None.

(** The pages a write transaction must leave alone (bolt's [freePages] at its begin). *)
Definition released (s : bolt) : list nat := if bo_pinned s then bo_pend s else [].
Definition may_use (s : bolt) (p : nat) : bool := negb (p =? bo_page s) && negb (existsb (Nat.eqb p) (released s)).

(** A write transaction that changes the page (storage.go 49-73); a page bolt would not take
    is no step. *)
Definition bwrite (p : nat) (l : list item) (s : bolt) : bolt :=
  if may_use s p
  then Bolt l p (fun x => if x =? p then render l else bo_mem s x) (bo_page s :: released s) (bo_pinned s) (bo_gen s)
  else s.

(** What is stored under a key (bolt's [Bucket.Get]). *)
Fixpoint find_item (k : str) (l : list item) : option str :=
  match l with
  | [] => None
  | (k', v) :: r => if str_eqb k k' then Some v else find_item k r
  end.

(** bolt's [Bucket.Delete] (bucket_logic.go 84-92, hash_index_logic.go 31-39): without the key
    the page stays. *)
Definition bdelete (p : nat) (k : str) (s : bolt) : bolt :=
  match find_item k (bo_items s) with
  | Some _ => bwrite p (List.filter (fun i : item => negb (str_eqb k (fst i))) (bo_items s)) s
  | None => Bolt (bo_items s) (bo_page s) (bo_mem s) (released s) (bo_pinned s) (bo_gen s)
  end.

(** bolt's [Bucket.Put] keeps the keys sorted. *)
Fixpoint put_item (k v : str) (l : list item) : list item :=
  match l with
  | [] => [(k, v)]
  | (k', v') :: r => if str_eqb k k' then (k, v) :: r
                     else if str_ltb k k' then (k, v) :: l
                     else (k', v') :: put_item k v r
  end.
Definition bput (p : nat) (k v : str) (s : bolt) : bolt := bwrite p (put_item k v (bo_items s)) s.

(** The file grows and is mapped anew. *)
Definition bgrow (s : bolt) : bolt :=
  if bo_pinned s then s
  else Bolt (bo_items s) (bo_page s) (bo_mem s) (bo_pend s) (bo_pinned s) (S (bo_gen s)).

(** A database that has been written once. *)
Definition bolt_of (l : list item) (pinned : bool) : bolt :=
  Bolt l 0 (fun x => if x =? 0 then render l else []) [] pinned 0.

(** ** Migrating buckets *)

(** The slices still to be sent, the removals still to run (each with its slice), what the
    other side has acknowledged, the keys that failed, whether the process has died. *)
Record mig := Mig {
  mg_db : bolt; mg_todo : list ref; mg_go : list ref; mg_sent : list item; mg_errs : list str; mg_dead : bool }.

(** [XNext]: one round of the loop (hashslot_service.go 354-387), acknowledged or not;
    [XRemove k p]: the goroutine of lines 381-386; [XPut], [XGrow]: others write. *)
Inductive xop := XNext (ack : bool) | XRemove (k p : nat) | XPut (k v : str) (p : nat) | XGrow.

Definition set_db (m : mig) (s : bolt) : mig := Mig s (mg_todo m) (mg_go m) (mg_sent m) (mg_errs m) (mg_dead m).
Definition die (m : mig) : mig := Mig (mg_db m) (mg_todo m) (mg_go m) (mg_sent m) (mg_errs m) true.

Definition xstep (m : mig) (o : xop) : mig :=
  if mg_dead m then m else
  match o with
  | XNext ack =>
      match mg_todo m with
      | [] => m
      | r :: rest =>
          match deref (mg_db m) r with
          | None => die m
          | Some k =>
              match find_item k (bo_items (mg_db m)) with
              | None => Mig (mg_db m) rest (mg_go m) (mg_sent m) (mg_errs m ++ [k]) false
              | Some v =>
                  if ack then Mig (mg_db m) rest (mg_go m ++ [r]) (mg_sent m ++ [(k, v)]) (mg_errs m) false
                  else Mig (mg_db m) rest (mg_go m) (mg_sent m) (mg_errs m ++ [k]) false
              end
          end
      end
  | XRemove k p =>
      match nth_error (mg_go m) k with
      | None => m
      | Some r =>
          match deref (mg_db m) r with
          | None => die m
          | Some key => Mig (bdelete p key (mg_db m)) (mg_todo m) (firstn k (mg_go m) ++ skipn (S k) (mg_go m))
                            (mg_sent m) (mg_errs m) false
          end
      end
  | XPut k v p => set_db m (bput p k v (mg_db m))
  | XGrow => set_db m (bgrow (mg_db m))
  end.

Definition xrun (m : mig) (ops : list xop) : mig := fold_left xstep ops m.

(** [migrateBuckets] begins: the keys in the slots (hashslot_service.go 345-352). *)
Definition mig_start (s : bolt) (sel : str -> bool) : mig :=
  Mig s (map fst (List.filter (fun x : ref * str => sel (snd x)) (key_refs (bo_gen s) (bo_page s) (16 + 16 * List.length (bo_items s)) (bo_items s))))
      [] [] [] false.

(** ** Finding versions by hash *)

Section Find.
  (** The versions there are, by name and number (metadata_service.go 215, as
      [service_get_version] of [Meta_Model]). *)
  Variable V : Type.
  Variable ver : str -> str -> option V.

  (** The answer, a slice out of range (line 214), the end of the process. *)
  Inductive fres := FDone (s : bolt) (l : list V) | FPanic | FDied.

  (** metadata_service.go 212-224; each removal is a write with the next of [pages]. *)
  Fixpoint find_refs (pages : list nat) (s : bolt) (rs : list ref) : fres :=
    match rs with
    | [] => FDone s []
    | r :: rs' =>
        match deref s r with
        | None => FDied
        | Some k =>
            match cut_last "."%char k with
            | None => FPanic
            | Some (name, t) =>
                match ver name t with
                | None => find_refs (tl pages) (bdelete (hd 0 pages) k s) rs'
                | Some v => match find_refs pages s rs' with FDone s' l => FDone s' (v :: l) | x => x end
                end
            end
        end
    end.

  (** [FindByHash] (205-229) on the page of the hash. *)
  Definition find_by (pages : list nat) (s : bolt) : fres :=
    find_refs pages s (map fst (key_refs (bo_gen s) (bo_page s) (16 + 16 * List.length (bo_items s)) (bo_items s))).
End Find.
Arguments FDone {V}. Arguments FPanic {V}. Arguments FDied {V}. Arguments find_refs {V}. Arguments find_by {V}.
