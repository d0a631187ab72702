(** Model of redirect, fly/helper.py:12-29: the response a handler gives to send the client elsewhere.  What becomes of the
    response is modelled in PyBridge.v (HTTP/1.1) and H2Resp.v (HTTP/2). *)
From Verif Require Import Base PyBridge.
From Coq Require Import ZArith List.
Import ListNotations.

(** An argument of the function: None, a str, bytes, another object. *)
Inductive arg := ANone | AStr (s : list N) | ABytes (b : list N) | AOther.
(** redirect, helper.py:12-29.  None: it raises.  [st]: the status, None if it is no int: comparing it raises
    (helper.py:13), or else the constructor of Response does (response.py:57-58).  Simplified: a str with surrogates, which
    cannot be encoded (helper.py:20), does not occur, since a str is its UTF-8 bytes. *)
Definition redirect (loc : arg) (st : option Z) (body : arg) : option pyresp :=
  match st with
  | None => None
  | Some st =>
    if ((st <? 300) || (400 <=? st))%Z then None
    else match loc with
         | AStr l =>
           match body with
           | AOther => None
           | ANone => Some (py_add_header (bs "location") l (py_response st None None (bs "text/plain")))
           | AStr b => Some (py_add_header (bs "location") l (py_response st None (Some b) (bs "text/plain")))
           | ABytes b => Some (py_add_header (bs "location") l (py_response st None (Some b) (bs "text/plain")))
           end
         | _ => None
         end
  end.
(** A handler that is [return redirect(loc, st, body)].  [trace]: the text of the exception if there is one. *)
Definition returns_redirect (trace : list N) (loc : arg) (st : option Z) (body : arg) : ran :=
  match redirect loc st body with Some p => Returned (PResp p) | None => RaisedOther trace end.
