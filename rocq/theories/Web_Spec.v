(** What is to hold of the web console. *)
From Coq Require Import Ascii String List Bool Arith.
From Verif Require Import Str_Model Url_Model Web_Model.
Import ListNotations.
Local Open Scope list_scope.

(** A text without any of the characters. *)
Definition without (s : string) (t : str) : Prop := forall c, In c t -> ~ In c (s2l s).

(** The bytes [a] to [b] of a file, as far as it goes. *)
Definition bytes_of (d : str) (a b : nat) (out : str) : Prop :=
  forall k, nth_error out k = if a + k <=? b then nth_error d (a + k) else None.

(** A name that stays as it is in the path of a URL. *)
Definition path_name (n : str) : Prop :=
  n <> [] /\ without "/?#%\" n /\ existsb ctl n = false /\ n <> s2l "."%string /\ n <> s2l ".."%string.
(** A value that stays as it is in a query. *)
Definition query_text (v : str) : Prop := without "&;+#%" v /\ existsb ctl v = false.

(** The pages of the console (src/adminserver/ui/src/pages). *)
Definition pages : list str := map s2l
  ["/about"; "/bucket"; "/config"; "/metadata"; "/server"; "/server/api"; "/server/data"; "/server/meta"; "/setting"]%string.
