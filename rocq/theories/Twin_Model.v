(** Model of requests that store the same object at a data server at the same time, and of requests
    about one upload that overlap.

    Source: src/objectserver/internal/usecase/service/objects_service.go 82-106 (Put), 229-237, 264-284
    (appending), 286-326 (CommitFile), temp_service.go 20-62, src/objectserver/internal/controller/http/
    temp/temp_rest.go 19-81, temp_mid.go 10-15, router.go 26-35.

    Simplified: one name on one mount point; its file is looked for on the disk only (Store_Model has the
    cache and the index); the requests carry the same content, as the name is made of its hash, layout
    and compression (apiserver object_service.go 157), already padded or compressed. *)
From Coq Require Import List Arith Bool.
Import ListNotations.

(** ** Storing *)
Section Store.
  Context {B : Type}.

  (** The commit of a piece renames its temporary file (objects_service.go 310-316); the commit of a
      compressed piece (294-308) and the PUT of an object (82-98) append the chunks to the file. *)
  Inductive kind := Rename | Append (chunks : list (list B)).
  Inductive told := TOk | TNotFound | TBroke.
  (** Before the check, after it, with the file [j] open and chunks to write, at the end. *)
  Inductive pc := Check | Act | Writing (j : nat) (rest : list (list B)) | Done (t : told).
  Record thread := Thread { t_kind : kind; t_pc : pc }.

  (** The file the name leads to, the bytes of the files, the requests; file [i] is the one request [i]
      brings or makes. *)
  Record state := State { st_entry : option nat; st_data : nat -> list B; st_threads : list thread }.

  Definition put_at {A} (l : list A) (i : nat) (x : A) : list A := firstn i l ++ x :: skipn (S i) l.
  Definition set_data (d : nat -> list B) (j : nat) (x : list B) : nat -> list B := fun k => if k =? j then x else d k.

  (** A request goes on; the body of one breaks off, or writing fails; its temporary file is removed
      (before the check this is the same as right after it, which does not look at that file). *)
  Inductive event := Go (i : nat) | Break (i : nat) | Gone (i : nat).

  (** [ExistPath] (objects_service.go 83, 289), the renaming or the opening, and the writes (one [write]
      to a file opened for appending is one step). *)
  Definition go (s : state) (i : nat) (t : thread) : state :=
    let to e d p := State e d (put_at (st_threads s) i (Thread (t_kind t) p)) in
    match t_pc t with
    | Check => match st_entry s with
               | Some _ => to (st_entry s) (st_data s) (Done TOk)
               | None => to (st_entry s) (st_data s) Act
               end
    | Act =>
        match t_kind t with
        | Rename => to (Some i) (st_data s) (Done TOk)
        | Append cs => match st_entry s with
                       | None => to (Some i) (set_data (st_data s) i []) (Writing i cs)
                       | Some j => to (Some j) (st_data s) (Writing j cs)
                       end
        end
    | Writing j [] => to (st_entry s) (st_data s) (Done TOk)
    | Writing j (c :: r) => to (st_entry s) (set_data (st_data s) j (st_data s j ++ c)) (Writing j r)
    | Done _ => s
    end.

  Definition happen (s : state) (v : event) : state :=
    match v with
    | Go i => match nth_error (st_threads s) i with Some t => go s i t | None => s end
    | Break i =>
        match nth_error (st_threads s) i with
        | Some (Thread k (Writing _ _)) => State (st_entry s) (st_data s) (put_at (st_threads s) i (Thread k (Done TBroke)))
        | _ => s
        end
    | Gone i =>  (* temp_service.go 48; the commit then answers 404 (objects_service.go 296-298, 311-313) *)
        match nth_error (st_threads s) i with
        | Some (Thread k Act) => State (st_entry s) (st_data s) (put_at (st_threads s) i (Thread k (Done TNotFound)))
        | _ => s
        end
    end.
  Definition run (s : state) (vs : list event) : state := fold_left happen vs s.

  (** What a GET of [size] bytes answers (objects_service.go 129-152). *)
  Definition read (s : state) (size : nat) : option (list B) :=
    match st_entry s with Some j => Some (firstn size (st_data s j)) | None => None end.

  (** The requests [ks] arrive with the content [c] and nothing is stored. *)
  Definition arrive (c : list B) (ks : list kind) : state :=
    State None (fun _ => c) (map (fun k => Thread k Check) ks).
End Store.
Arguments kind : clear implicits. Arguments pc : clear implicits. Arguments thread : clear implicits.
Arguments state : clear implicits.

(** ** One upload *)

(** A PATCH looks for the entry (temp_mid.go 10-15, temp_rest.go 21-25), then opens the file, making it if
    there is none (objects_service.go 231); a DELETE takes the entry away (temp_rest.go 36-40); a PUT
    looks for it, renames the file and takes the entry away (61-81). *)
Inductive rpc := PatchCheck | PatchOpen | PutCheck | PutRename | PutRemove | DelCheck | DelRemove | REnd.

(** The entry, the temporary file, the notifications of removed entries, the requests. *)
Record upload := Upload { u_entry : bool; u_file : bool; u_events : nat; u_reqs : list rpc }.

(** A request goes on; the cache drops the entry; a cleaner handles a notification (temp_service.go 41-52). *)
Inductive uevent := UGo (i : nat) | UDrop | UClean.

Definition after_rpc (u : upload) (p : rpc) : upload * rpc :=
  let check p' := (u, if u_entry u then p' else REnd) in
  let remove := Upload false (u_file u) (if u_entry u then S (u_events u) else u_events u) (u_reqs u) in
  match p with
  | PatchCheck => check PatchOpen
  | PatchOpen => (Upload (u_entry u) true (u_events u) (u_reqs u), REnd)
  | PutCheck => check PutRename
  | PutRename => if u_file u then (Upload (u_entry u) false (u_events u) (u_reqs u), PutRemove) else (u, REnd)
  | PutRemove => (remove, REnd)
  | DelCheck => check DelRemove
  | DelRemove => (remove, REnd)
  | REnd => (u, REnd)
  end.
Definition uhappen (u : upload) (v : uevent) : upload :=
  match v with
  | UGo i =>
      match nth_error (u_reqs u) i with
      | Some p => let (u', p') := after_rpc u p in Upload (u_entry u') (u_file u') (u_events u') (put_at (u_reqs u) i p')
      | None => u
      end
  | UDrop => if u_entry u then Upload false (u_file u) (S (u_events u)) (u_reqs u) else u
  | UClean => match u_events u with O => u | S n => Upload (u_entry u) false n (u_reqs u) end
  end.
Definition urun (u : upload) (vs : list uevent) : upload := fold_left uhappen vs u.
