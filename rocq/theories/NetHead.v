(** Replies to HEAD requests, below the handler interface (net/http server.go of Go
    1.15, not in /repo). *)
From Verif Require Import Base GoStr Header Router Ctx Engine.
Local Open Scope Z_scope.

(** net/http server.go chunkWriter.Write: of a reply to HEAD the body is not sent; a
    type is guessed from it all the same (chunkWriter.writeHeader).
    Simplification: the Content-Length that the server computes for short replies
    is left out, as in Engine.finish. *)
Definition net_client (sniff : gostr -> gostr) (r : request) (w : rwstate) : Z * header * gostr :=
  let '(n, h, body) := finish sniff w in (n, h, if seqb (rq_method r) (L "HEAD") then [] else body).
