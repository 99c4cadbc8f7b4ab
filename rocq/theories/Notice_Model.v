(** Model of the mails about errors: which calls of the logger cause one, what it says, and
    when it is sent.

    Source: src/common/logs/error_hook.go 10-48, src/common/logs/config.go 10-20,
    src/common/logs/logs.go 36-77, src/common/response/response.go 110-137,
    src/apiserver/internal/controller/http/metadata_api.go 28-37.

    External: logrus 1.9.3 (the hooks of a level run before the line is written, on a copy of
    the entry that nobody else has; a line above the level of the logger runs none), net/smtp
    (a mail is taken or not; why not is left out), strconv (the texts of its errors).
    Simplified: the time and the place of a log line are texts given from outside; the names of
    types ("%T") are texts; bytes above 0x7e in a quoted text are kept as they are. *)
From Verif Require Import Str_Model Util_Model Bind_Model.
Local Open Scope list_scope.

(** ** The logger *)

(** Levels of logrus, from the gravest: error_hook.go 15 and logs.go 46-62. *)
Inductive level := Panic | Fatal | Error | Warn | Info | Debug | Trace.

(** The number of a level in logrus: panic is 0. Called at logs.go 64. *)
Definition grade (l : level) : nat :=
  match l with Panic => 0 | Fatal => 1 | Error => 2 | Warn => 3 | Info => 4 | Debug => 5 | Trace => 6 end.

(** The name of a level ("%s" of it, error_hook.go 21). *)
Definition level_name (l : level) : str :=
  s2l match l with
      | Panic => "panic" | Fatal => "fatal" | Error => "error" | Warn => "warning"
      | Info => "info" | Debug => "debug" | Trace => "trace"
      end%string.

(** [strings.ToUpper] of ASCII text (logs.go 47). *)
Definition upper_char (c : ascii) : ascii :=
  if ((97 <=? N_of_ascii c) && (N_of_ascii c <=? 122))%N then ascii_of_N (N_of_ascii c - 32) else c.
Definition upper (s : str) : str := map upper_char s.

(** [ToLogLevel] (logs.go 46-62): the level in the configuration; an unknown one falls through
    to info. *)
Definition to_level (s : str) : level :=
  let u := upper s in
  if str_eqb u (s2l "TRACE") then Trace
  else if str_eqb u (s2l "DEBUG") then Debug
  else if str_eqb u (s2l "WARN") then Warn
  else if str_eqb u (s2l "ERROR") then Error
  else Info.

(** [Levels] of the hook (error_hook.go 14-16). *)
Definition hook_levels : list level := [Error; Panic; Fatal].

(** [EmailConfig] (config.go 10-16). *)
Record config := mk_config { target : str; sender : str; password : str; smtp_host : str; smtp_port : str }.

(** [IsValid] (config.go 18-20). *)
Definition is_valid (c : config) : bool :=
  negb (str_eqb (sender c) []) && negb (str_eqb (target c) []) &&
  negb (str_eqb (smtp_host c) []) && negb (str_eqb (password c) []).

(** A log line: its level, time, message and, when the caller is reported, file and line
    ([logrus.Entry], error_hook.go 21-24). *)
Record entry := mk_entry { e_level : level; e_time : str; e_text : str; e_caller : option (str * Z) }.

(** Whether the hook runs for a line: the level of the logger lets it pass, the hook was added
    (logs.go 36-40, 68-74) and names its level. *)
Definition level_eqb (a b : level) : bool := Nat.eqb (grade a) (grade b).
Definition fires (c : config) (conf_level : str) (e : entry) : bool :=
  (grade (e_level e) <=? grade (to_level conf_level))%nat && is_valid c && existsb (level_eqb (e_level e)) hook_levels.

(** ** The mail *)

(** The line of a mail (error_hook.go 21-24). *)
Definition line (e : entry) : str :=
  e_time e ++ s2l " [" ++ level_name (e_level e) ++ s2l "] " ++ e_text e ++
  match e_caller e with
  | None => []
  | Some (file, n) => s2l " at " ++ file ++ s2l ":" ++ print_Z n
  end.

(** A byte by its number (no code counterpart). *)
Definition byte (n : N) : ascii := ascii_of_N n.

(** A new line and three tabs, the indent of the page (error_hook.go 26-31). *)
Definition indent : str := byte 10 :: [byte 9; byte 9; byte 9].

(** The page before and after the line (error_hook.go 26-31). *)
Definition quotes (s : str) : str := byte 34 :: s ++ [byte 34].
Definition page_head : str :=
  indent ++ s2l "<html><body style=" ++ quotes (s2l "padding: 2rem") ++ s2l ">" ++
  indent ++ s2l "  <h1>An Error Occurs</h1>" ++
  indent ++ s2l "  <div style=" ++
  quotes (s2l "color: red; background-color: rgba(255, 0, 0, 0.10); border-radius: 0.5rem; padding: 1rem;") ++ s2l ">".
Definition page_tail : str := s2l "</div>" ++ indent ++ s2l "</body></html>" ++ indent.
Definition page (e : entry) : str := page_head ++ line e ++ page_tail.

(** [net.JoinHostPort] (error_hook.go 37). *)
Definition join_host_port (host port : str) : str :=
  if existsb (fun c => if ascii_dec c ":" then true else false) host
  then s2l "[" ++ host ++ s2l "]:" ++ port else host ++ s2l ":" ++ port.

(** What is given to [smtp.SendMail] (error_hook.go 34-45): where to, from, to whom, the text. *)
Record mail := mk_mail { m_addr : str; m_from : str; m_to : list str; m_text : str }.

Definition crlf : str := [byte 13; byte 10].
Definition mail_of (c : config) (e : entry) : mail :=
  let port := if str_eqb (smtp_port c) [] then s2l "587" else smtp_port c in
  mk_mail (join_host_port (smtp_host c) port) (sender c) [target c]
    (s2l "From: " ++ sender c ++ crlf ++
     s2l "To: " ++ target c ++ crlf ++
     s2l "Subject: [GoodFS] ERROR OCCURS!" ++ crlf ++
     s2l "Content-Type: text/html; charset=" ++ quotes (s2l "UTF-8") ++ s2l ";" ++ crlf ++
     crlf ++ page e).

(** ** The goroutines *)

(** A server: the mails whose goroutines are not done, the mails taken by the mail server, and
    whether the process lives (error_hook.go 18-47). *)
Record state := mk_state { pending : list mail; sent : list mail; lives : bool }.

(** A line is logged; the goroutine of the i-th pending mail ends, the mail taken or not; the
    process ends, as after a fatal line or a panic (error_hook.go 19, 45). *)
Inductive event := Log (e : entry) | Done (i : nat) (taken : bool) | Exit.

(** The list without its i-th element (no code counterpart). *)
Fixpoint drop {A} (i : nat) (l : list A) : list A :=
  match l, i with
  | [], _ => []
  | _ :: l, O => l
  | x :: l, S i => x :: drop i l
  end.

(** One step (error_hook.go 18-47). *)
Definition step (c : config) (conf_level : str) (s : state) (ev : event) : state :=
  if lives s then
    match ev with
    | Log e => if fires c conf_level e then mk_state (pending s ++ [mail_of c e]) (sent s) true else s
    | Done i taken =>
        match nth_error (pending s) i with
        | None => s
        | Some m => mk_state (drop i (pending s)) (if taken then sent s ++ [m] else sent s) true
        end
    | Exit => mk_state [] (sent s) false
    end
  else s.

Definition start : state := mk_state [] [] true.
Definition run (c : config) (conf_level : str) (evs : list event) : state := fold_left (step c conf_level) evs start.

(** ** A request that does not fit *)

(** [strconv.Quote] (in the texts of strconv's errors; reached from metadata_api.go 34). *)
Definition hex_digit (n : N) : ascii := byte (if (n <? 10)%N then 48 + n else 87 + n)%N.
Definition quote_char (c : ascii) : str :=
  let n := N_of_ascii c in
  (if n =? 34 then [byte 92; byte 34]
   else if n =? 92 then [byte 92; byte 92]
   else if n =? 7 then s2l "\a" else if n =? 8 then s2l "\b" else if n =? 9 then s2l "\t"
   else if n =? 10 then s2l "\n" else if n =? 11 then s2l "\v" else if n =? 12 then s2l "\f"
   else if n =? 13 then s2l "\r"
   else if (n <? 32) || (n =? 127) then s2l "\x" ++ [hex_digit (n / 16); hex_digit (n mod 16)]
   else [c])%N.
Definition quote (s : str) : str := quotes (List.concat (map quote_char s)).

(** An optional sign and digits, of whatever size (strconv's distinction of its two errors). *)
Definition looks_int (s : str) : bool :=
  match parse_digits (match s with
                      | c :: r => if ascii_dec c "-" then r else if ascii_dec c "+" then r else s
                      | [] => [] end) with
  | Some _ => true
  | None => false
  end.

(** The text of a [*strconv.NumError] (reached from metadata_api.go 34). *)
Definition num_error (f s : str) (range : bool) : str :=
  s2l "strconv." ++ f ++ s2l ": parsing " ++ quote s ++ s2l ": " ++
  s2l (if range then "value out of range" else "invalid syntax").

(** Errors as [FailErr] tells them apart (response.go 111-136): failed validation, one with a
    status, any other; with type and text. *)
Inductive error := Invalid | Coded (status : Z) (type text : str) | Other (type text : str).

(** What [FailErr] logs at level error, and the status it answers (response.go 110-137). *)
Definition fail_log (method path type text : str) : str :=
  s2l "request(" ++ method ++ s2l " " ++ path ++ s2l "): [" ++ type ++ s2l "] " ++ text.
Definition fail_err (method path : str) (e : error) : option str * Z :=
  match e with
  | Invalid => (None, 400%Z)
  | Coded st ty tx => (if (st / 100 =? 5)%Z then Some (fail_log method path ty tx) else None, st)
  | Other ty tx => (Some (fail_log method path ty tx), 500%Z)
  end.

(** The first field of a pass whose text does not convert, and the error (metadata_api.go 34;
    gin as in Bind_Model). *)
Fixpoint first_bad (dec : str -> bool) (q : request) (src : source) (fs : list field) : option error :=
  match fs with
  | [] => None
  | f :: fs =>
      match find dec q src f with
      | Bad =>
          let s := hd [] (look q src (key_of src f)) in
          Some (match f_kind f with
                | KInt _ => Other (s2l "*strconv.NumError") (num_error (s2l "ParseInt") s (looks_int s))
                | KBool => Other (s2l "*strconv.NumError") (num_error (s2l "ParseBool") s false)
                | _ => Other (s2l "*json.SyntaxError") []
                end)
      | _ => first_bad dec q src fs
      end
  end.

(** The error of a binding: that of the last pass (binder.go 17-29). *)
Definition bind_error (dec : str -> bool) (b : binder) (q : request) : option error :=
  if snd (bind dec b q) then None
  else match first_bad dec q (last (b_srcs b) Uri) (b_fields b) with
       | Some e => Some e
       | None => Some Invalid
       end.

(** The beginning of [MetadataController.Get] (metadata_api.go 28-37): what it logs and answers
    when the request does not fit; [None] when it goes on. *)
Definition get_metadata (dec : str -> bool) (q : request) : option (option str * Z) :=
  option_map (fail_err (s2l "GET") (s2l "/v1/metadata/:name")) (bind_error dec meta_get q).
