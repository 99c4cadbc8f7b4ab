(** What mails about errors should be, apart from the model: the reader's view of a page, and
    the lines that deserve a mail.

    Source: src/common/logs/error_hook.go 10-48. *)
From Verif Require Import Str_Model Notice_Model.
From Coq Require Import Permutation.
Local Open Scope list_scope.

(** The markup of a page in order: what stands between [<] and [>] (the page of error_hook.go
    26-31 as its reader sees it). [tag] is the tag begun and not ended.  Simplified: every [<]
    begins a tag. *)
Fixpoint marks (tag : option str) (s : str) : list str :=
  match s with
  | [] => []
  | c :: s =>
      match tag with
      | None => marks (if ascii_dec c "<" then Some [] else None) s
      | Some t => if ascii_dec c ">" then t :: marks None s else marks (Some (t ++ [c])) s
      end
  end.

(** The text of a page: what stands outside of the tags (error_hook.go 26-31). *)
Fixpoint outside (tag : bool) (s : str) : str :=
  match s with
  | [] => []
  | c :: s =>
      if tag then outside (if ascii_dec c ">" then false else true) s
      else if ascii_dec c "<" then outside true s else c :: outside false s
  end.

(** The characters written by name (error_hook.go 26-31; the five of HTML that matter). *)
Definition names : list (str * ascii) :=
  [(s2l "&lt;", "<"%char); (s2l "&gt;", ">"%char); (s2l "&amp;", "&"%char);
   (s2l "&#34;", ascii_of_N 34); (s2l "&#39;", "'"%char)].

(** Whether a text begins with another (no code counterpart). *)
Fixpoint begins (p s : str) : bool :=
  match p, s with
  | [], _ => true
  | x :: p, y :: s => if ascii_dec x y then begins p s else false
  | _, [] => false
  end.

(** The text with its named characters resolved; [skip] characters belong to a name already
    resolved. *)
Fixpoint resolve (skip : nat) (s : str) : str :=
  match s with
  | [] => []
  | c :: r =>
      match skip with
      | S k => resolve k r
      | O =>
          match List.find (fun n => begins (fst n) s) names with
          | Some (n, x) => x :: resolve (List.length n - 1) r
          | None => c :: resolve 0 r
          end
      end
  end.

(** What the reader of a page sees, and the markup it is drawn with. *)
Definition seen (page : str) : str := resolve 0 (outside false page).
Definition drawn (page : str) : list str := marks None page.

(** The name of a tag: what stands before its first blank. *)
Fixpoint tag_name (t : str) : str :=
  match t with
  | [] => []
  | c :: t => if ascii_dec c " " then [] else c :: tag_name t
  end.

(** Blanks, tabs and ends of lines. *)
Definition blank (s : str) : Prop := Forall (fun c => In (N_of_ascii c) [9; 10; 13; 32]%N) s.

(** The markup of the page: one heading, one box (error_hook.go 26-31). *)
Definition frame : list str := map s2l ["html"; "body"; "h1"; "/h1"; "div"; "/div"; "/body"; "/html"]%string.

(** A page says a line and nothing else: its markup is the frame, and its text is the heading and
    the line. *)
Definition says (page line : str) : Prop :=
  map tag_name (drawn page) = frame /\
  exists a b d, blank a /\ blank b /\ blank d /\ seen page = a ++ s2l "An Error Occurs" ++ b ++ line ++ d.

(** A line tells what was logged: when, how grave, the message, and where when that is known
    (error_hook.go 21-24). *)
Definition tells (e : entry) (l : str) : Prop :=
  exists place, l = e_time e ++ s2l " [" ++ level_name (e_level e) ++ s2l "] " ++ e_text e ++ place /\
    match e_caller e with
    | None => place = []
    | Some (file, n) => exists a b, place = a ++ file ++ b ++ print_Z n
    end.

(** A line without characters that mean something else in a page. *)
Definition plain (s : str) : Prop := ~ In "<"%char s /\ ~ In "&"%char s.

(** The lines that deserve a mail: errors and graver (error_hook.go 14-16). *)
Definition grave (e : entry) : Prop := e_level e = Panic \/ e_level e = Fatal \/ e_level e = Error.

(** Mail is set up: everything it needs is there (config.go 18-20). *)
Definition set_up (c : config) : Prop :=
  sender c <> [] /\ target c <> [] /\ smtp_host c <> [] /\ password c <> [].

(** The lines logged in a run until the process ends. *)
Fixpoint logged (evs : list event) : list entry :=
  match evs with
  | [] => []
  | Exit :: _ => []
  | Log e :: evs => e :: logged evs
  | Done _ _ :: evs => logged evs
  end.

(** Every mail about a grave line. *)
Definition due (c : config) (evs : list event) : list mail :=
  map (mail_of c) (filter (fun e => match e_level e with Panic | Fatal | Error => true | _ => false end) (logged evs)).

(** Nothing goes wrong: every mail is taken, and the process does not end. *)
Definition calm (evs : list event) : Prop :=
  ~ In Exit evs /\ forall i, ~ In (Done i false) evs.

(** Characters that stand for themselves in a quoted text: printable ones but the quotation mark
    and the backslash ([strconv.Quote], reached from src/apiserver/internal/controller/http/
    metadata_api.go 34). *)
Definition kept_char (c : ascii) : Prop := (32 <= N_of_ascii c < 127)%N /\ N_of_ascii c <> 34%N /\ N_of_ascii c <> 92%N.
