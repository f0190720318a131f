(** Model of pyvrp/cpp/LoadSegment.{h,cpp}. *)
From Verif Require Import Base DurationSegment Data.

(** LoadSegment.h:33-36 *)
Record lseg := mk_lseg { ls_initial : Z; ls_delta : Z; ls_increase : Z; ls_excess : Z }.

(** LoadSegment.h:82 *)
Definition ls_zero : lseg := mk_lseg 0 0 0 0.

(** LoadSegment.h:111-121 *)
Definition ls_merge (first second : lseg) : lseg :=
  mk_lseg (ls_initial first + ls_initial second)
          (ls_delta first + ls_delta second)
          (Z.max (ls_increase first) (ls_delta first + ls_increase second))
          (ls_excess first + ls_excess second).

(** LoadSegment.h:123 *)
Definition ls_load (s : lseg) : Z := ls_initial s + ls_increase s.

(** LoadSegment.h:125-128 *)
Definition ls_excessLoad (capacity : Z) (s : lseg) : Z :=
  ls_excess s + Z.max (ls_load s - capacity) 0.

(** LoadSegment.h:130-133 *)
Definition ls_finalise (capacity : Z) (s : lseg) : lseg :=
  mk_lseg 0 0 0 (ls_excessLoad capacity s).

(** LoadSegment.cpp:16-21 *)
Definition ls_client (c : client) (dim : nat) : lseg :=
  let delta := dimv (c_pickup c) dim - dimv (c_delivery c) dim in
  mk_lseg (dimv (c_delivery c) dim) delta (Z.max 0 delta) 0.

(** LoadSegment.cpp:23-33; [pickup] tells the type PICKUP from DELIVERY. *)
Definition ls_shipment (s : shipment) (pickup : bool) (dim : nat) : lseg :=
  let delta := if pickup then dimv (s_amount s) dim else - dimv (s_amount s) dim in
  mk_lseg 0 delta (Z.max 0 delta) 0.

(** LoadSegment.cpp:35-38 *)
Definition ls_vehicle (v : vehicle) (dim : nat) : lseg :=
  mk_lseg (dimv (v_initialLoad v) dim) 0 0 0.
