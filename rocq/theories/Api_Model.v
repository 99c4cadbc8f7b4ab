(** The API server around the object streams: choosing data servers, letting requests
    in, naming stored content, and finding where content already lies. *)
From Coq Require Import List Arith ZArith Ascii Bool.
From Verif Require Import Str_Model Util_Model.
Import ListNotations.
Local Notation length := List.length.
Local Open Scope nat_scope.

(** ** Choosing data servers: src/apiserver/internal/usecase/componet/selector *)

(** [ds[i] = v] on a slice; out of range is a panic in Go and is excluded by the
    callers below. *)
Fixpoint set_at {A} (i : nat) (v : A) (l : list A) : list A :=
  match l, i with
  | [], _ => []
  | _ :: l', O => v :: l'
  | x :: l', S i' => x :: set_at i' v l'
  end.

(** random_selector.go 12-18 [RandomSelector.Pop]: [idx] is the outcome of
    [rand.Intn(len(ds))]; [None] is the panic for an index out of range (in particular
    for an empty slice). *)
Definition pop_random {A} (idx : nat) (ds : list A) : option (list A * A) :=
  match nth_error ds idx, nth_error ds (length ds - 1) with
  | Some ip, Some last => Some (firstn (length ds - 1) (set_at idx last ds), ip)
  | _, _ => None
  end.

(** The tail shared by space_first_selector.go 58-60 and weighted_io_first.go 63-65:
    swap the chosen server with the first and cut it off. *)
Definition pop_index {A} (idx : nat) (ds : list A) : option (list A * A) :=
  match nth_error ds idx, ds with
  | Some res, first :: _ => Some (tl (set_at idx first (set_at 0 res ds)), res)
  | _, _ => None
  end.

(** space_first_selector.go 46-57: prefer [b] to [min] when its used space is known
    and smaller; an unknown one counts as [math.MaxInt64].  [used] is the cached map
    at the time of the call (fetchSpaceInfo, 24-40, is not modelled: any map). *)
Definition less_used {A} (used : A -> option Z) (m b : A) : bool :=
  match used b with
  | None => false
  | Some bu => (bu <? match used m with Some mu => mu | None => int64_max end)%Z
  end.

(** weighted_io_first.go 51-62: likewise with [math.MaxInt32]. *)
Definition less_io {A} (io : A -> option Z) (m b : A) : bool :=
  match io b with
  | None => false
  | Some bw => (bw <? match io m with Some mw => mw | None => 2 ^ 31 - 1 end)%Z
  end.

(** The three strategies (selectors.go 21-35) with what their surroundings supply. *)
Inductive strategy (A : Type) :=
| SRandom (idx : nat)                (* the random index of this call *)
| SSpace (used : A -> option Z)      (* the space map at this call *)
| SIo (io : A -> option Z).          (* the io map at this call *)
Arguments SRandom {A}. Arguments SSpace {A}. Arguments SIo {A}.

(** [Selector.Pop]: random_selector.go 12-18, space_first_selector.go 42-61,
    weighted_io_first.go 47-66. *)
Definition pop {A} (s : strategy A) (ds : list A) : option (list A * A) :=
  match s with
  | SRandom idx => pop_random (idx mod length ds) ds
  | SSpace used => pop_index (extremal_index (less_used used) ds) ds
  | SIo io => pop_index (extremal_index (less_io io) ds) ds
  end.

(** selectors.go 47-58 [IPSelector.Select]: state is (IPs, used).  Simplified: slices
    are values; the two never share memory in use. *)
Definition ip_select {A} (s : strategy A) (st : list A * list A) : option ((list A * list A) * A) :=
  let (ips, used) := st in
  let (ips, used) := match ips with [] => (used, ips) | _ => (ips, used) end in
  match pop s ips with
  | Some (ips', ip) => Some ((ips', used ++ [ip]), ip)
  | None => None
  end.

(** The loop of discovery_logic.go 42-44; one strategy outcome per call. *)
Fixpoint select_loop {A} (ss : list (strategy A)) (st : list A * list A) : option (list A) :=
  match ss with
  | [] => Some []
  | s :: ss' =>
      match ip_select s st with
      | None => None
      | Some (st', ip) =>
          match select_loop ss' st' with
          | None => None
          | Some l => Some (ip :: l)
          end
      end
  end.

(** discovery_logic.go 35-46 [SelectDataServer]: [ss] has one outcome per requested
    server; [None] is a panic. *)
Definition select_servers {A} (ss : list (strategy A)) (ds : list A) : option (list A) :=
  match ds with
  | [] => Some []
  | _ => select_loop ss (ds, [])
  end.

(** ** Letting requests in: src/apiserver/internal/usecase/componet/auth *)

(** [strings.HasPrefix]. *)
Fixpoint has_prefix (s p : str) : bool :=
  match p, s with
  | [], _ => true
  | c :: p', d :: s' => if ascii_dec c d then has_prefix s' p' else false
  | _ :: _, [] => false
  end.

(** Outcome of a validator's [Middleware]: (ok, err), an error being its status. *)
Record outcome := mk_outcome { oc_ok : bool; oc_err : option Z }.

(** The two context keys (auth_middleware.go 11-12): MiddleKey, MiddleErr. *)
Record actx := mk_actx { a_key : bool; a_err : option Z }.

(** auth_middleware.go 14-32 [PreAuthenticate]. *)
Definition pre_auth (enable : bool) (white : list str) (path : str) : actx :=
  if negb enable then mk_actx true None
  else if existsb (has_prefix path) white then mk_actx true None
  else mk_actx false (Some 403%Z).

(** auth_middleware.go 34-47 [AuthenticateWrap]. *)
Definition auth_wrap (o : outcome) (c : actx) : actx :=
  if a_key c then c
  else match oc_err o with
       | Some e => mk_actx (a_key c) (Some e)
       | None => mk_actx (oc_ok o) (a_err c)
       end.

(** auth_middleware.go 49-54 [AfterAuthenticate]: [None] goes on to the handler,
    [Some e] aborts with [e]; a missing error would be a failed type assertion
    ([err.(error)] on nil), shown as status -1. *)
Definition after_auth (c : actx) : option Z :=
  if a_key c then None
  else Some match a_err c with Some e => e | None => (-1)%Z end.

(** auth_middleware.go 56-62 [AuthenticationMiddleware]: the chain, run in order. *)
Definition auth_chain (enable : bool) (white : list str) (path : str) (vs : list outcome) : option Z :=
  after_auth (fold_left (fun c o => auth_wrap o c) vs (pre_auth enable white path)).

(** A stored credential (credential.AdminCredential). *)
Record cred := mk_cred { cr_user : str; cr_pass : str }.

(** Answer of etcd to a Get of the credential key: an error, or the decoded value if
    the key exists (decoding errors are folded into [EGetErr]). *)
Inductive eget := EGetErr | EGet (c : option cred).

(** password_validator.go 54-71 [Verify]: [None] is success, else the status (errors
    that carry none are answered with 500). *)
Definition verify (g : eget) (user pass : str) : option Z :=
  match g with
  | EGetErr => Some 500%Z
  | EGet None => Some 500%Z
  | EGet (Some a) =>
      if str_eqb user (cr_user a) && str_eqb pass (cr_pass a) then None else Some 401%Z
  end.

(** password_validator.go 73-79 [Middleware]: [basic] is [Request.BasicAuth()]. *)
Definition password_mw (enable : bool) (basic : option (str * str)) (g : eget) : outcome :=
  match basic with
  | Some (u, p) =>
      if enable then
        let err := verify g u p in
        mk_outcome (match err with None => true | Some _ => false end) err
      else mk_outcome false None
  | None => mk_outcome false None
  end.

(** password_validator.go 29-52 [init]: [get_fails] tells that the Get answered with an
    error, [put_fails] that the Put did; the result is the credential stored after. *)
Definition pv_init (enable : bool) (cfg : cred) (get_fails put_fails : bool) (stored : option cred) : option cred :=
  if negb enable then stored
  else
    let skip := negb get_fails &&
                ((match stored with Some _ => true | None => false end)
                 || str_eqb (cr_user cfg) [] || str_eqb (cr_pass cfg) []) in
    if skip then stored
    else if put_fails then stored else Some cfg.

(** callback_validator.go 38-66 [Middleware]: [host] is the Host header, [hdr] the
    Bucket header, [post] what [Verify] (25-36) gives for the bucket found: [None] for
    an answer of 200, else the status. *)
Definition callback_mw (enable : bool) (host hdr : str) (post : str -> option Z) : outcome :=
  if negb enable then mk_outcome false None
  else
    let ask b := let err := post b in
                 mk_outcome (match err with None => true | Some _ => false end) err in
    match cut_on "."%char host with
    | Some (b, _) =>
        match b with
        | _ :: _ => ask b
        | [] => match hdr with [] => mk_outcome false (Some 400%Z) | _ => ask hdr end
        end
    | None => match hdr with [] => mk_outcome false (Some 400%Z) | _ => ask hdr end
    end.

(** ** Naming stored content: src/apiserver/internal/usecase/service/object_service.go *)

(** entity/metadata.go 20-25: ECReedSolomon is 1, MultiReplication 2. *)
Definition ec_rs : Z := 1.
Definition multi_rep : Z := 2.

(** object_service.go 56-61: the text given to SHA-256.  [fmt.Sprint] puts a space
    between two operands when neither is a string. *)
Definition unique_text (digest : str) (ss ds ps : Z) (compress : bool) : str :=
  let (ds, ps) := if (ss =? multi_rep)%Z then (0%Z, 0%Z) else (ds, ps) in
  digest ++ print_Z ss ++ " "%char :: print_Z ds ++ " "%char :: print_Z ps ++ " "%char ::
  (if compress then s2l "true" else s2l "false").

(** object_service.go 56-62 [UniqueHash]; [sha] is crypto.SHA256 in hexadecimal. *)
Definition unique_hash (sha : str -> str) (digest : str) (ss ds ps : Z) (compress : bool) : str :=
  sha (unique_text digest ss ds ps compress).

(** What a bucket prescribes (entity/metadata.go 62-74) and what the server is
    configured with (apiserver config: ReedSolomon, Replication). *)
Record policy := mk_policy { p_compress : bool; p_strategy : Z; p_data : Z; p_parity : Z }.
Record defaults := mk_defaults { df_data : Z; df_parity : Z; df_copies : Z }.
(** The storage layout of a version. *)
Record layout := mk_layout { l_strategy : Z; l_data : Z; l_parity : Z; l_compress : bool }.

(** entity/metadata.go 76-101 [MakeVersion] without the shard size. *)
Definition make_version (b : policy) (cf : defaults) (v : layout) : layout :=
  let comp := if p_compress b then true else l_compress v in
  let own := (0 <? p_strategy b)%Z in
  let ss := if own then p_strategy b else l_strategy v in
  let data := if own then p_data b else df_data cf in
  let parity := if own then p_parity b else df_parity cf in
  let copies := if own then p_data b else df_copies cf in
  if (ss =? multi_rep)%Z then mk_layout ss copies (l_parity v) comp
  else mk_layout ss data parity comp.

(** ** Finding stored content *)

(** object_service.go 30-43 [getLocateResp]; [None] is a panic. *)
Definition locate_resp (raw : str) : option (str * Z) :=
  match split_on "#"%char raw with
  | [ip; i] => match atoi i with Some idx => Some (ip, idx) | None => None end
  | _ => None
  end.

(** object_service.go 75: the question for shard [i]. *)
Definition locate_ask (hash : str) (i : nat) (key : str) : str :=
  hash ++ "."%char :: print_N (N.of_nat i) ++ "#"%char :: key.

(** objectserver locate.go 76-99 [handlerLocate] on a server at [ip] storing the files
    for which [exist] holds: the key and text of the answer, if it answers. *)
Definition locate_answer (exist : str -> bool) (ip : str) (msg : str) : option (str * str) :=
  match split_on "#"%char msg with
  | [hash; key] =>
      if exist hash then
        match split_on "."%char hash with
        | [_; i] => Some (key, ip ++ "#"%char :: i)
        | _ => None
        end
      else None
  | _ => None
  end.

(** What the wait in object_service.go 87-106 can receive. *)
Inductive lev := LBatch (raws : list str) | LClosed | LCanceled | LTimeout.

Inductive lres := LPanic | LFail | LFound (locates : list str) | LWaiting.

(** object_service.go 97-102: one batch of answers; [None] is a panic (bad text or
    index out of range). *)
Fixpoint locate_batch (raws : list str) (locates : list str) (cnt : nat) : option (list str * nat) :=
  match raws with
  | [] => Some (locates, cnt)
  | raw :: raws' =>
      match locate_resp raw with
      | Some (ip, idx) =>
          if (0 <=? idx)%Z && (idx <? Z.of_nat (length locates))%Z
          then locate_batch raws' (set_at (Z.to_nat idx) ip locates) (S cnt)
          else None
      | None => None
      end
  end.

(** object_service.go 85-108: the waiting loop of [LocateObject]; [LWaiting] when the
    given events are used up. *)
Fixpoint locate_loop (evs : list lev) (locates : list str) (cnt : nat) : lres :=
  if length locates <=? cnt then LFound locates
  else match evs with
       | [] => LWaiting
       | LBatch raws :: evs' =>
           match locate_batch raws locates cnt with
           | Some (locates', cnt') => locate_loop evs' locates' cnt'
           | None => LPanic
           end
       | _ :: _ => LFail
       end.

(** object_service.go 65-109 [LocateObject]: [shards] empty entries to fill. *)
Definition locate_object (shards : nat) (evs : list lev) : lres := locate_loop evs (repeat [] shards) 0.
