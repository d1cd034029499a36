(** Specification of request bodies. *)
From Verif Require Import Base Ctx.

(** reading comes to the end of the body, and not to an error *)
Definition ends_well (how : feed) : bool := match how with FMem | FWire => true | FBroken | FClosed => false end.
(** a body, all of which was read and which was then closed *)
Definition spent (b : rbody) : rbody := mkBody [] (match bd_feed b with FMem => FMem | _ => FClosed end).
(** what there is to read of a body, and whether reading it ends without an error *)
Definition unread (b : rbody) : gostr * bool := (bd_data b, ends_well (bd_feed b)).
