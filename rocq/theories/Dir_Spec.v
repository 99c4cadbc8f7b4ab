(** Words for the theorems about paths and names. *)
From Coq Require Import List Bool Arith NArith ZArith Ascii.
From Verif Require Import Str_Model Dir_Model.
Import ListNotations.
Local Open Scope list_scope.

(** One element of a path: a text that names an entry of a directory. *)
Definition element (n : str) : Prop := n <> [] /\ n <> dot /\ n <> dots /\ ~ List.In "/"%char n.

(** What the routes of the data server give as a name: not empty, without a slash. *)
Definition segment (n : str) : Prop := n <> [] /\ ~ List.In "/"%char n.

(** A path that means what it says: from the root, elements only. *)
Definition canonical (p : str) (es : list str) : Prop := p = "/"%char :: slashes es /\ Forall element es.

(** A hexadecimal digit as [crypto.SHA256] writes it, and the names that API servers give pieces. *)
Definition hex (c : ascii) : Prop := List.In c (list_ascii_of_string "0123456789abcdef").
Definition piece (hash : str) (i : N) : str := hash ++ "."%char :: print_N i.
Definition good_hash (h : str) : Prop := h <> [] /\ Forall hex h.

(** The directory of a drive in which a server keeps its objects. *)
Definition home (s : dserver) (mp : str) : str := join_path [mp; store_dir (ds_storage s) (ds_sid s)].
