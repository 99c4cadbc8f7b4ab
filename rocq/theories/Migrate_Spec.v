(** Specification of moving objects. *)
From Verif Require Export Migrate_Model.
Local Notation length := List.length.
Local Open Scope list_scope.

(** Smallest integer at or above [t/n]. *)
Definition is_ceiling (a t n : Z) : Prop := (n * (a - 1) < t /\ t <= n * a)%Z.

Definition sum_of (l : list (str * Z)) : Z := fold_right (fun kv a => (snd kv + a)%Z) 0%Z l.

Section S.
  Context {B : Type}.

  Definition live (t : transfer B) : Prop := t_stage t <> Over.

  (** While one transfer is between looking for the file and opening it, no other
      transfer of that name is under way. *)
  Definition calm (w : world B) : Prop :=
    forall i j ti tj b,
      nth_error (trs w) i = Some ti -> nth_error (trs w) j = Some tj -> i <> j ->
      t_name ti = t_name tj -> t_stage ti = Stated b -> ~ live tj.

  Fixpoint calm_run (w : world B) (es : list event) : Prop :=
    calm w /\ match es with [] => True | e :: r => calm_run (step w e) r end.

  (** Before the migration: no transfers; every file of the receiver has its own
      data; a file the receiver already has under a name of the sender is the
      sender's or a beginning of it. *)
  Record ready (w : world B) : Prop := {
    ready_trs : trs w = [];
    ready_ino : forall n ino, r_dir w n = Some ino -> ino < r_next w;
    ready_own : forall n m ino, r_dir w n = Some ino -> r_dir w m = Some ino -> n = m;
    ready_prefix : forall n c f, s_dir w n = Some c -> r_file w n = Some f -> exists r, c = f ++ r }.

  Definition no_upload (e : @event B) : Prop := match e with MUpload _ _ => False | _ => True end.

  (** The object is on the sender or on the receiver, in full. *)
  Definition present (w : world B) (n : str) (c : list B) : Prop :=
    s_dir w n = Some c \/ r_file w n = Some c.
End S.
