(** Model of pyvrp/cpp/DurationSegment.{h,cpp}. *)
From Verif Require Import Base.

(** DurationSegment.h:50-61 *)
Record dseg := mk_dseg {
  ds_dur : Z;    (* duration_ of current trip *)
  ds_tw : Z;     (* timeWarp_ of current trip *)
  ds_early : Z;  (* startEarly_ of current trip *)
  ds_late : Z;   (* startLate_ of current trip *)
  ds_rel : Z;    (* releaseTime_ of current trip *)
  ds_cdur : Z;   (* cumDuration_, earlier trips *)
  ds_ctw : Z;    (* cumTimeWarp_, earlier trips *)
  ds_pel : Z     (* prevEndLate_ of previous trip *)
}.

(** DurationSegment.h:170-179, the raw constructor with its default arguments:
    four fields given, and the one-argument form. *)
Definition ds_raw (d w e l : Z) : dseg := mk_dseg d w e l 0 0 0 MAXV.
Definition ds_service (d : Z) : dseg := mk_dseg d 0 0 MAXV 0 0 0 MAXV.

(** DurationSegment.h:190-226 *)
Definition ds_merge (edge : Z) (first second : dseg) : dseg :=
  let atSecond := ds_dur first - ds_tw first + edge in
  let diffTw := if ds_early first + atSecond >? ds_late second
                then ds_early first + atSecond - ds_late second else 0 in
  let diffWait := if ds_early second - atSecond >? ds_late first
                  then ds_early second - atSecond - ds_late first else 0 in
  let secondLate := if atSecond >? ds_late second - MAXV
                    then ds_late second - atSecond else ds_late second in
  mk_dseg (ds_dur first + ds_dur second + edge + diffWait)
          (ds_tw first + ds_tw second + diffTw)
          (Z.max (ds_early first) (ds_early second - atSecond) - diffWait)
          (Z.min (ds_late first) secondLate + diffTw)
          (Z.max (ds_rel first) (ds_rel second))
          (ds_cdur first + ds_cdur second)
          (ds_ctw first + ds_ctw second)
          (ds_pel first).

(** DurationSegment.h:228-232 *)
Definition ds_merge0 (first second : dseg) : dseg := ds_merge 0 first second.

(** DurationSegment.h:285-297 *)
Definition ds_startEarly (s : dseg) : Z := Z.max (ds_early s) (ds_rel s).
Definition ds_startLate (s : dseg) : Z := Z.max (ds_late s) (ds_rel s).

(** DurationSegment.h:266-270 *)
Definition ds_duration (s : dseg) : Z :=
  let duration := ds_cdur s + ds_dur s in
  duration + Z.max (ds_startEarly s - ds_pel s) 0.

(** DurationSegment.h:272-283 *)
Definition ds_timeWarp (maxDuration : Z) (s : dseg) : Z :=
  let timeWarp := ds_ctw s + ds_tw s in
  let netDuration := ds_duration s - timeWarp in
  timeWarp + Z.max (ds_rel s - ds_late s) 0
  + (if netDuration >? maxDuration then netDuration - maxDuration else 0).

(** DurationSegment.h:299-304 *)
Definition ds_endEarly (s : dseg) : Z :=
  let tripDuration := ds_duration s - ds_cdur s in
  let tripTimeWarp := ds_timeWarp MAXV s - ds_ctw s in
  ds_startEarly s + tripDuration - tripTimeWarp.

(** DurationSegment.h:306-314 *)
Definition ds_endLate (s : dseg) : Z :=
  let tripDuration := ds_duration s - ds_cdur s in
  let tripTimeWarp := ds_timeWarp MAXV s - ds_ctw s in
  let netDuration := tripDuration - tripTimeWarp in
  if netDuration >? MAXV - ds_startLate s then MAXV else ds_startLate s + netDuration.

(** DurationSegment.h:258-264 *)
Definition ds_finaliseFront (s : dseg) : dseg :=
  let release := ds_raw 0 0 (ds_startEarly s) (ds_startLate s) in
  ds_merge0 release (ds_raw (ds_dur s) (ds_tw s) (ds_early s) (ds_late s)).

(** DurationSegment.h:234-256 *)
Definition ds_finaliseBack (s : dseg) : dseg :=
  let prev := ds_raw 0 0 0 (ds_pel s) in
  let finalised := ds_merge0 prev (ds_finaliseFront s) in
  mk_dseg 0 0 (ds_endEarly finalised) MAXV (ds_endEarly finalised)
          (ds_cdur s + ds_duration finalised)
          (ds_ctw s + ds_timeWarp MAXV finalised)
          (ds_endLate finalised).

(** DurationSegment.cpp:12-19 *)
Definition ds_slack (s : dseg) : Z :=
  let prevSlack := Z.max (ds_pel s - ds_rel s) 0 in
  Z.min (ds_startLate s - ds_startEarly s) prevSlack.
