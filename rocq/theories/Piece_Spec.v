(** Vocabulary of the properties of Piece_Props. *)
From Verif Require Import Str_Model Piece_Model.
From stdpp Require Import gmap.
Local Open Scope list_scope.

(** Every temporary file belongs to an upload the server knows. *)
Definition no_leftover (s : pstate) : Prop :=
  forall mp id x, ps_temp s !! (mp, id) = Some x ->
  exists ti, ps_cache s !! id = Some ti /\ ti_mp ti = mp.

(** The server is not restarted and pieces go to the mount point the cleaner looks at. *)
Definition tidy_op (c : pconf) (o : pop) : Prop :=
  match o with OPost _ _ mp _ => mp = pc_base c | ORestart => False | _ => True end.

(** The request is not about upload [id]: it neither opens, ends nor forgets it. *)
Definition leaves (id : str) (o : pop) : Prop :=
  match o with
  | OPost _ _ _ id' | ODelete id' | OPut id' _ | OExpire id' => id' <> id
  | ORestart => False
  | _ => True
  end.

(** The id was not used before. *)
Definition unused (id : str) (h : list pop) : Prop :=
  Forall (fun o => match o with OPost _ _ _ id' => id' <> id | _ => True end) h.

(** The bodies sent for an upload, with how much of each arrived. *)
Definition bodies (id : str) (h : list pop) : list (str * option nat) :=
  List.concat (map (fun o => match o with
    | OPatch id' b a => if bool_decide (id' = id) then match b with [] => [] | _ => [(b, a)] end else []
    | _ => [] end) h).

(** The file's content that follows. *)
Definition content (page : nat) (l : list (str * option nat)) : str :=
  List.concat (map (fun x => pad page (arriving (fst x) (snd x))) l).

(** All bodies arrive in full, all but the last fill whole pages. *)
Fixpoint aligned (page : nat) (l : list (str * option nat)) : Prop :=
  match l with
  | [] => True
  | [(_, a)] => a = None
  | (b, a) :: l' => a = None /\ length b mod page = 0 /\ aligned page l'
  end.

(** ** The counter *)

(** What the counter will show when the goroutines have run. *)
Definition settled (s : cstate) : Prop := cs_pend s = [] /\ cs_cap s = total_size (cs_objs s).

(** A step without compression or restart that does not receive what is there. *)
Definition plain_op (s : cstate) (o : cop) : Prop :=
  match o with
  | CPut _ _ _ compress | CCommit _ _ _ compress => compress = false
  | CReceive name _ => cs_objs s !! name = None
  | CStart dirs => dirs = 0%Z
  | _ => True
  end.

(** Each step is followed by the goroutine it started. *)
Fixpoint prompt (s : cstate) (ops : list cop) : Prop :=
  match ops with
  | [] => True
  | o :: ops' => plain_op s o /\ prompt (cap_run [o; CRun 0] s) ops'
  end.
Definition promptly (ops : list cop) : list cop := List.concat (map (fun o => [o; CRun 0]) ops).
