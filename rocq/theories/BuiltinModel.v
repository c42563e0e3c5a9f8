(** The middlewares that come with the library: src/shared/middleware.rs.  Definitions only. *)
From stdpp Require Import strings list.
From Verif Require Import TextLib JsonLib SerdeLib TypesModel RpcModel LogModel ReconnectModel.

(** LoggingMiddleware, 235-252; AuthMiddleware, 306-317; RetryMiddleware, 365-390 *)
Inductive builtin := BLogging (l : level) | BAuth (token : text) | BRetry (retries initial maximum : N).
(** Their hooks, 255-277, 320-325, 393-402, leave every message alone and do not fail; the ones they do not define are the
    trait's, 65-88, which do the same. *)
Definition hooks {Q R T E} (b : builtin) : middleware Q R T E := MkMiddleware (λ q, (q, None)) (λ r, (r, None)) (λ _, None) (λ _, None).
(** What they write to the log: the level and the text.  The derived Debug of a request, a response and an id is any function. *)
Section lines.
  Context (show_request : rpc_request → text) (show_response : rpc_response → text) (show_id : rid → text).
  (** on_request, 255-264, 320-325, 393-402 *)
  Definition request_line (b : builtin) (q : rpc_request) : level * text :=
    match b with
    | BLogging Trace => (Trace, lit "Sending request: " ++ show_request q)
    | BLogging l => (l, lit "Sending request: " ++ rq_method q)
    | BAuth _ => (Debug, lit "Adding authentication to request: " ++ rq_method q)
    | BRetry n _ _ => (Debug, lit "Request " ++ rq_method q ++ lit " configured with max " ++ show_N n ++ lit " retries")
    end.
  (** on_response, 266-276; the other two do not define it *)
  Definition response_line (b : builtin) (r : rpc_response) : option (level * text) :=
    match b with
    | BLogging Trace => Some (Trace, lit "Received response: " ++ show_response r)
    | BLogging Debug => Some (Debug, lit "Received response for: " ++ show_id (rs_id r))
    | BLogging l => Some (l, lit "Received response")
    | _ => None
    end.
  (** A chain of these and of middlewares of the user's: process_request, 173-178, and process_response, 181-186; the lines
      written by those whose turn came *)
  Definition link : Type := builtin + middleware rpc_request rpc_response message api_error.
  Definition as_middleware (x : link) : middleware rpc_request rpc_response message api_error := match x with inl b => hooks b | inr u => u end.
  Definition request_log (c : list link) (q : rpc_request) : list (level * text) :=
    omap (λ xq, match xq.1 with inl b => Some (request_line b xq.2) | inr _ => None end) (zip c (process_request (as_middleware <$> c) q).1.1).
  Definition response_log (c : list link) (r : rpc_response) : list (level * text) :=
    omap (λ xr, match xr.1 with inl b => response_line b xr.2 | inr _ => None end) (zip c (process_response (as_middleware <$> c) r).1.1).
End lines.
(** Default of LoggingMiddleware, 247-251, and of RetryMiddleware, 385-389 *)
Definition logging_default : builtin := BLogging Debug.
Definition retry_default : builtin := BRetry 3 1000 30000.
