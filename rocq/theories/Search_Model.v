(** Finding by hash beside writes: [MetadataService.FindByHash]
    (src/metaserver/internal/usecase/service/metadata_service.go 205-229) runs a read
    transaction for the keys of the hash, then one for each version, and one write
    transaction for each key whose version it did not find.  Other requests write in
    between.  Simplified: the keys are copies (that they are slices of bolt's memory is
    in [Borrow_Model]), the versions are read without the cache, the final sync is left
    out. *)
From Verif Require Import Str_Model Meta_Model.
From stdpp Require Import gmap.

(** A running [FindByHash] (metadata_service.go 205-229): the hash asked for, the keys
    still to visit (212), the key just found missing and about to be removed from the
    index (216-219), the versions found (223). *)
Record search := mk_search {
  q_hash : str; q_left : list str; q_gone : option str; q_found : list version }.

(** The search has returned (metadata_service.go 225-228): no key is left. *)
Definition finished (q : search) : bool :=
  match q_left q, q_gone q with [], None => true | _, _ => false end.

(** The database and the searches begun so far (metadata_service.go 205-229; hash_index_repo.go
    11-27 holds the database of all). *)
Record state := mk_state { s_db : db; s_searches : list search }.

(** No search runs (hash_index_repo.go 12-14). *)
Definition start (d : db) : state := mk_state d [].

(** What may happen next: a write by another request, the first transaction of a new search
    (metadata_service.go 206), the reading of the next version (213-215), the removal of an
    entry (218). *)
Inductive event := Write (o : hop) | Begin (h : str) | Look (i : nat) | Drop (i : nat).

(** [FindAll] (hash_index_repo.go 20-23): the keys in the order of the index. *)
Definition begin_search (h : str) (d : db) : search :=
  mk_search h (ksort (elements (idx_get h (d_hash d)))) None [].

(** The first half of the loop body (metadata_service.go 213-223); a key without a dot ends the
    search (the slice of line 214 panics), entries just missed must be removed first. *)
Definition look_next (d : db) (q : search) : search :=
  match q_gone q, q_left q with
  | None, k :: ks =>
      match cut_last "."%char k with
      | None => mk_search (q_hash q) [] None (q_found q)
      | Some (name, t) =>
          match service_get_version name (to_int t) d with
          | None => mk_search (q_hash q) ks (Some k) (q_found q)
          | Some v => mk_search (q_hash q) ks None (q_found q ++ [v])
          end
      end
  | _, _ => q
  end.

(** [m.hashIndex.Remove(hash, key)] (metadata_service.go 218, hash_index_repo.go 16-18). *)
Definition drop_gone (q : search) (d : db) : db * search :=
  match q_gone q with
  | Some k => (with_hash (idx_remove (q_hash q) k (d_hash d)) d,
               mk_search (q_hash q) (q_left q) None (q_found q))
  | None => (d, q)
  end.

(** One transaction (metadata_service.go 205-229, storage.go 39-73). *)
Definition step (s : state) (e : event) : state :=
  match e with
  | Write o => mk_state (hstep (s_db s) o) (s_searches s)
  | Begin h => mk_state (s_db s) (s_searches s ++ [begin_search h (s_db s)])
  | Look i =>
      match s_searches s !! i with
      | None => s
      | Some q => mk_state (s_db s) (<[ i := look_next (s_db s) q ]> (s_searches s))
      end
  | Drop i =>
      match s_searches s !! i with
      | None => s
      | Some q => let (d, q') := drop_gone q (s_db s) in
                  mk_state d (<[ i := q' ]> (s_searches s))
      end
  end.

(** Any number of transactions of any number of requests. *)
Definition run (s : state) (es : list event) : state := fold_left step es s.

(** The transactions of search [i] alone on [n] keys (metadata_service.go 212-224). *)
Fixpoint visits (i n : nat) : list event :=
  match n with O => [] | S n' => Look i :: Drop i :: visits i n' end.
