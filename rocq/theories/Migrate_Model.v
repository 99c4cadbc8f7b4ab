(** Model of moving objects between data servers
    (src/objectserver/internal/usecase/service/migration_service.go and
    src/objectserver/internal/controller/grpc/migration_server.go): the plan, the
    distribution of files over the targets, and the transfer of one file.

    Simplified: one mount point per server; the file is sized and opened in one
    step; the capacity counters, the metadata servers and the network appear
    as inputs of the events. *)
From Verif Require Export Str_Model.
Local Notation length := List.length.

(** ** The plan: migration_service.go:67-92 *)

(** Nearest integer to [n/d], ties to even ([d > 0]). *)
Definition rne_div (n d : Z) : Z :=
  let q := (n / d)%Z in
  let r := (n mod d)%Z in
  if (2 * r <? d)%Z then q
  else if (d <? 2 * r)%Z then (q + 1)%Z
  else if Z.even q then q else (q + 1)%Z.

(** float64 of a non-negative integer, as the integer it stands for: 53
    significant bits, ties to even (line 73, 75). *)
Definition f64 (z : Z) : Z :=
  if (z <? 2 ^ 53)%Z then z
  else let e := (2 ^ (Z.log2 z - 52))%Z in (rne_div z e * e)%Z.

(** [math.Ceil(total / float64(size))] for a non-negative float64 integer and a
    positive count: the quotient is rounded to 53 significant bits first (line 80).
    A quotient below 1 stays positive, its ceiling is 1. *)
Definition ceil_div64 (total size : Z) : Z :=
  if (total =? 0)%Z then 0%Z
  else if (total <? size)%Z then 1%Z
  else
    let l := Z.log2 (total / size) in
    if (l <=? 52)%Z then
      let p := (2 ^ (52 - l))%Z in
      let m := rne_div (total * p) size in
      (- ((- m) / p))%Z
    else
      let p := (2 ^ (l - 52))%Z in
      (rne_div total (size * p) * p)%Z.

(** migration_service.go:73-76: float64 sum in map order. *)
Definition total64 (self : Z) (peers : list (str * Z)) : Z :=
  fold_left (fun t kv => f64 (t + f64 (snd kv))) peers (f64 self).

(** migration_service.go:67-92 [DeviationValues]: own capacity, capacities of
    the peers that answered (lines 46-63), joining or leaving; [None] = error. *)
Definition deviation_values (self : Z) (peers : list (str * Z)) (join : bool) : option (list (str * Z)) :=
  let size := Z.of_nat (if join then S (length peers) else length peers) in
  if (size =? 0)%Z then None
  else
    let total := total64 self peers in
    if (total =? 0)%Z then None
    else
      let avg := ceil_div64 total size in
      let res := filter (fun kv => (0 <? snd kv)%Z)
                   (map (fun kv => (fst kv, if join then (snd kv - avg)%Z else (avg - snd kv)%Z)) peers) in
      match res with [] => None | _ => Some res end.

(** ** Distribution: migration_service.go:192-239 *)

(** The walk over the files: each goes to the current target; when its quota is
    used up the next target follows, or the walk ends ([io.EOF], line 235). *)
Fixpoint distribute (targets : list (str * Z)) (cur : str) (left : Z) (files : list (str * Z)) : list (str * str * Z) :=
  match files with
  | [] => []
  | (f, size) :: r =>
      (f, cur, size) ::
      (let left' := (left - size)%Z in
       if (left' <=? 0)%Z then
         match targets with
         | [] => []
         | (c, q) :: ts => distribute ts c q r
         end
       else distribute targets cur left' r)
  end.

(** Lines 164-194: nothing to do without targets. *)
Definition sending_plan (size_map : list (str * Z)) (files : list (str * Z)) : list (str * str * Z) :=
  match size_map with
  | [] => []
  | (c, q) :: ts => distribute ts c q files
  end.

(** ** Reading the file: migration_service.go:116-137 *)

(** The messages [writeStream] sends for a file of content [file] announced with
    [size] bytes, buffer at most [maxbuf] (4 MB); [None] = still looping.  A read
    with an empty buffer returns no bytes and no error. *)
Fixpoint send_loop {B} (fuel buf : nat) (file : list B) (out : list (list B)) : option (list (list B)) :=
  match fuel with
  | O => None
  | S f =>
      match buf, file with
      | O, _ => send_loop f buf file (out ++ [[]])
      | _, [] => Some out
      | _, _ => send_loop f buf (skipn buf file) (out ++ [firstn buf file])
      end
  end.
Definition write_stream {B} (fuel size maxbuf : nat) (file : list B) : option (list (list B)) :=
  send_loop fuel (Nat.min size maxbuf) file [].

(** ** Transfers *)
Section Transfer.
  Context {B : Type}.

  (** Progress of one [sendFileTo] (lines 140-161, 208-227): nothing received
      yet; receiver has looked for the file (line 324) and goes on to replace or
      to create it; receiver writing to an open file; stream closed with success;
      finish acknowledged; over. *)
  Inductive stage := Opening | Stated (replace : bool) | Writing (ino : nat) | Sent | Acked | Over.
  Record transfer := { t_name : str; t_size : nat; t_left : list B; t_stage : stage }.

  (** Sender directory; receiver directory and open files (an open file stays
      writable after its name is removed); transfers. *)
  Record world := {
    s_dir : str -> option (list B);
    r_dir : str -> option nat;
    r_data : nat -> list B;
    r_next : nat;
    trs : list transfer }.

  Definition upd_dir {A} (f : str -> A) (k : str) (v : A) : str -> A :=
    fun k' => if str_eq_dec k' k then v else f k'.
  Definition upd_data (f : nat -> list B) (k : nat) (v : list B) : nat -> list B :=
    fun k' => if k' =? k then v else f k'.
  Definition set_tr (l : list transfer) (i : nat) (t : transfer) : list transfer :=
    firstn i l ++ t :: skipn (S i) l.

  (** A new empty file under the name. *)
  Definition create_file (w : world) (name : str) : world * nat :=
    ({| s_dir := s_dir w; r_dir := upd_dir (r_dir w) name (Some (r_next w));
        r_data := upd_data (r_data w) (r_next w) []; r_next := S (r_next w); trs := trs w |},
     r_next w).

  (** migration_service.go:324-329 at the receiver: [None] = exists with that
      size, [os.ErrExist]; otherwise whether there is a file to remove. *)
  Definition look_file (w : world) (name : str) (size : nat) : option bool :=
    match r_dir w name with
    | Some ino => if length (r_data w ino) =? size then None else Some true
    | None => Some false
    end.

  (** migration_service.go:330-335: remove and open, or open; [None] = nothing
      to remove, an error.  Without removal an existing file is opened. *)
  Definition open_file (w : world) (name : str) (replace : bool) : option (world * nat) :=
    match replace, r_dir w name with
    | true, None => None
    | true, Some _ => Some (create_file w name)
    | false, None => Some (create_file w name)
    | false, Some ino => Some (w, ino)
    end.

  Definition with_tr (w : world) (i : nat) (t : transfer) : world :=
    {| s_dir := s_dir w; r_dir := r_dir w; r_data := r_data w; r_next := r_next w; trs := set_tr (trs w) i t |}.
  Definition at_stage (t : transfer) (left : list B) (s : stage) : transfer :=
    {| t_name := t_name t; t_size := t_size t; t_left := left; t_stage := s |}.

  (** One chunk arrives at an open file (migration_server.go:57). *)
  Definition append_chunk (w : world) (ino : nat) (c : list B) : world :=
    {| s_dir := s_dir w; r_dir := r_dir w; r_data := upd_data (r_data w) ino (r_data w ino ++ c);
       r_next := r_next w; trs := trs w |}.

  Inductive event :=
  | MStart (name : str)            (* the walk reaches the file, lines 205-214, 147 *)
  | MLook (i : nat)                (* the receiver stops between looking for the file and opening it *)
  | MSend (i k : nat)              (* read at most k+1 bytes and send them, lines 118-136 *)
  | MBreak (i : nat)               (* any error of the stream, the file or the receiver *)
  | MFinish (i : nat) (ok : bool)  (* FinishReceive, lines 157, 265-316; ok = registry and metadata *)
  | MDelete (i : nat)              (* the goroutine of lines 219-226 *)
  | MUpload (name : str) (c : list B)  (* an upload to the sender still running, objects_service.go Put *)
  | MCrashSender
  | MCrashReceiver.

  (** First chunk at the receiver: open as decided, then write. *)
  Definition first_chunk (w : world) (i : nat) (t : transfer) (replace : bool) (c rest : list B) : world :=
    match open_file w (t_name t) replace with
    | None => with_tr w i (at_stage t [] Over)
    | Some (w', ino) => with_tr (append_chunk w' ino c) i (at_stage t rest (Writing ino))
    end.

  Definition step (w : world) (e : event) : world :=
    match e with
    | MStart n =>
        match s_dir w n with
        | None => w
        | Some f => {| s_dir := s_dir w; r_dir := r_dir w; r_data := r_data w; r_next := r_next w;
                       trs := trs w ++ [{| t_name := n; t_size := length f; t_left := f; t_stage := Opening |}] |}
        end
    | MSend i k =>
        match nth_error (trs w) i with
        | Some t =>
            let k := if t_size t =? 0 then 0 else S k in
            let c := firstn k (t_left t) in
            let rest := skipn k (t_left t) in
            let eof := match k, t_left t with S _, [] => true | _, _ => false end in
            match t_stage t with
            | Opening =>
                if eof then with_tr w i (at_stage t [] Sent)
                else match look_file w (t_name t) (t_size t) with
                     | None => with_tr w i (at_stage t rest Sent)
                     | Some replace => first_chunk w i t replace c rest
                     end
            | Stated replace => first_chunk w i t replace c rest
            | Writing ino =>
                if eof then with_tr w i (at_stage t [] Sent)
                else with_tr (append_chunk w ino c) i (at_stage t rest (Writing ino))
            | _ => w
            end
        | None => w
        end
    | MLook i =>
        match nth_error (trs w) i with
        | Some t =>
            match t_stage t, t_left t with
            | Opening, _ :: _ =>
                match look_file w (t_name t) (t_size t) with
                | None => with_tr w i (at_stage t [] Sent)
                | Some replace => with_tr w i (at_stage t (t_left t) (Stated replace))
                end
            | _, _ => w
            end
        | None => w
        end
    | MBreak i =>
        match nth_error (trs w) i with Some t => with_tr w i (at_stage t [] Over) | None => w end
    | MFinish i ok =>
        match nth_error (trs w) i with
        | Some t =>
            match t_stage t with
            | Sent =>
                let good := match r_dir w (t_name t) with
                            | Some ino => length (r_data w ino) =? t_size t
                            | None => false
                            end in
                with_tr w i (at_stage t [] (if good && ok then Acked else Over))
            | _ => w
            end
        | None => w
        end
    | MDelete i =>
        match nth_error (trs w) i with
        | Some t =>
            match t_stage t with
            | Acked =>
                {| s_dir := upd_dir (s_dir w) (t_name t) None; r_dir := r_dir w; r_data := r_data w;
                   r_next := r_next w; trs := set_tr (trs w) i (at_stage t [] Over) |}
            | _ => w
            end
        | None => w
        end
    | MUpload n c =>
        match s_dir w n with
        | None => w
        | Some f =>
            {| s_dir := upd_dir (s_dir w) n (Some (f ++ c)); r_dir := r_dir w; r_data := r_data w;
               r_next := r_next w;
               trs := map (fun t => if str_eq_dec (t_name t) n then
                                      match t_stage t with
                                      | Opening | Stated _ | Writing _ => at_stage t (t_left t ++ c) (t_stage t)
                                      | _ => t
                                      end
                                    else t) (trs w) |}
        end
    | MCrashSender =>
        {| s_dir := s_dir w; r_dir := r_dir w; r_data := r_data w; r_next := r_next w; trs := [] |}
    | MCrashReceiver =>
        {| s_dir := s_dir w; r_dir := r_dir w; r_data := r_data w; r_next := r_next w;
           trs := map (fun t => match t_stage t with
                                | Opening | Stated _ | Writing _ => at_stage t [] Over
                                | _ => t
                                end) (trs w) |}
    end.

  Definition run (w : world) (es : list event) : world := fold_left step es w.

  (** What the receiver serves under a name. *)
  Definition r_file (w : world) (n : str) : option (list B) :=
    match r_dir w n with Some ino => Some (r_data w ino) | None => None end.
End Transfer.
Arguments world B : clear implicits.
Arguments transfer B : clear implicits.

(** ** Metadata at the end of a transfer: migration_service.go:288-313 *)

(** Answer of one metadata group to the location update: updated, does not know
    the object (404), failed. *)
Inductive meta_answer := Updated | Unknown | MetaFailed.

(** Lines 290-313: accepted unless at least half of the groups failed. *)
Definition meta_accepts (answers : list meta_answer) : bool :=
  match answers with
  | [] => false
  | _ =>
      let fails := length (filter (fun a => match a with MetaFailed => true | _ => false end) answers) in
      negb (((length answers + 1) / 2) <=? fails)
  end.
