(** What sessions, credentials and answers of the admin server are for. *)
From Coq Require Import ZArith.
From Verif Require Import Str_Model Rpc_Model Console_Model.
Local Open Scope list_scope.

(** Operations of the API server that change something. *)
Definition alters (op : apiop) : Prop := match op with APut | ACreate | AUpdate | ADelete => True | _ => False end.

(** Requests of the admin server that change something. *)
Definition changing (c : call) : Prop :=
  match c with CApi _ op _ => alters op | CCmd _ _ => True | _ => False end.

(** API servers that refuse credentials which are not accepted, except for the text of
    their configuration (src/apiserver/internal/controller/http/server.go 30-39). *)
Definition checking (accepts : str -> bool) (e : env) : Prop :=
  forall op t, accepts t = false -> op <> AConfig ->
    exists st, e_http e op t = Some st /\ is_ok st = false /\ (100 <= st < 600)%Z.

(** What an operation answers when it was done: src/apiserver/internal/controller/http,
    security_api.go 20-22 and metadata_api.go for 200, objects_api.go 51-55 for 201,
    bucket_api.go 40, 54, 62 for 201, 200 and 204. *)
Definition done_status (op : apiop) : Z :=
  match op with APut | ACreate => 201 | ADelete => 204 | ACheck | AVersions | AGet | AUpdate | AConfig => 200 end.

(** The operation a route stands for, if it is one of the API server's. *)
Definition operation (r : route) : option apiop :=
  match r with
  | RLogin => Some ACheck | RVersions => Some AVersions | RCreate => Some ACreate | RUpdate => Some AUpdate
  | RDelete => Some ADelete | RDownload => Some AGet | RUpload => Some APut | _ => None
  end.

(** The command a request stands for, and the server it is about. *)
Definition commanded (q : req) : option command :=
  match q_route q with
  | RLeaveGroup => Some LeaveGroup | RJoinGroup => Some (JoinGroup (q_other q))
  | RJoin => Some JoinCluster | RLeave => Some LeaveCluster | _ => None
  end.
Definition about (e : env) (q : req) : option str :=
  match q_route q with RJoin | RLeave => e_data e (q_sid q) | _ => e_meta e (q_sid q) end.

(** A success as a client understands it. *)
Definition success (d : done) : Prop := is_ok (status d) = true.
