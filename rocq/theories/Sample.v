(** A small but complete problem instance used by the examples that accompany the theorems: two
    depots, four clients (two in a mutually exclusive group, one with a release time), a shipment,
    two vehicle types (one with a reload depot, one on a slower profile), two load dimensions. *)
From Coq Require Import Bool.
From Verif Require Import Base DurationSegment Data Valid LoadSegment SearchRoute Route RouteSpec Cost.
Import String.

Definition sLoc (x y : Z) : location := mk_location x y EmptyString.
Definition sMat1 : matrix := mk_matrix 8 8 [0; 4; 3; 8; 7; 9; 9; 6;
    4; 0; 5; 6; 3; 9; 5; 10;
    3; 5; 0; 5; 6; 6; 6; 5;
    8; 6; 5; 0; 7; 3; 3; 4;
    7; 3; 6; 7; 0; 10; 4; 11;
    9; 9; 6; 3; 10; 0; 6; 3;
    9; 5; 6; 3; 4; 6; 0; 7;
    6; 10; 5; 4; 11; 3; 7; 0].
Definition sMat2 : matrix := mk_matrix 8 8 [0; 8; 6; 16; 14; 18; 18; 12;
    8; 0; 10; 12; 6; 18; 10; 20;
    6; 10; 0; 10; 12; 12; 12; 10;
    16; 12; 10; 0; 14; 6; 6; 8;
    14; 6; 12; 14; 0; 20; 8; 22;
    18; 18; 12; 6; 20; 0; 12; 6;
    18; 10; 12; 6; 8; 12; 0; 14;
    12; 20; 10; 8; 22; 6; 14; 0].

Definition sClient (loc : nat) (service early late : Z) (del pick : list Z) (rel prize : Z)
    (req : bool) (g : option nat) : client :=
  mk_client loc service early late del pick rel prize req g EmptyString.

Definition sample : pdata := mk_pdata
  [sLoc 0 0; sLoc 4 0; sLoc 1 2; sLoc 3 5; sLoc 6 1; sLoc 2 7; sLoc 5 4; sLoc 0 6]
  [ sClient 2 2 5 30 [3; 1] [1; 0] 0 0 true None;
    sClient 3 1 0 60 [2; 0] [0; 2] 20 7 false (Some 0%nat);
    sClient 4 3 10 40 [4; 2] [0; 0] 0 5 false (Some 0%nat);
    sClient 5 2 0 MAXV [1; 1] [5; 0] 3 9 false None ]
  [ mk_depot 0 0 100 1 EmptyString; mk_depot 1 0 90 2 EmptyString ]
  [ mk_vehicle 2 0 0 [6; 4] 0 100 50 60 10 2 1 0 40 [1; 0] [1%nat] 2 20 3 70 EmptyString;
    mk_vehicle 1 0 1 [8; 3] 0 95 MAXV 80 4 1 0 1 95 [0; 0] [] 0 0 0 MAXV EmptyString ]
  [sMat1; sMat2] [sMat1; sMat2]
  [ mk_cgroup [1%nat; 2%nat] true EmptyString ]
  [ mk_shipment (mk_step 6 0 50 1) (mk_step 7 5 80 2) [3; 1] 6 true EmptyString ].

(** A two-trip visit list for the first vehicle type, and a one-trip list for the second. *)
Definition sMid : list activity := [AClient 0; APickup 0; AClient 3; ADelivery 0; ADepot 1; AClient 1].
Definition sMid2 : list activity := [AClient 2].

Lemma nth_nonneg l : Forall (fun x => 0 <= x) l -> forall i, 0 <= nth i l 0.
Proof. intros H i. apply (Forall_nth_default (fun x => 0 <= x)); [exact H|lia]. Qed.

Lemma sample_valid : valid_data sample.
Proof.
  constructor; cbn [sample p_clients p_depots p_shipments p_vehicles].
  - repeat (constructor; [constructor; cbn; unfold MAXV; try lia; repeat constructor; lia|]). constructor.
  - repeat (constructor; [constructor; cbn; unfold MAXV; try lia|]). constructor.
  - repeat (constructor; [constructor; cbn; try lia; try (constructor; cbn; unfold MAXV; lia); repeat constructor; lia|]).
    constructor.
  - repeat (constructor; [constructor; cbn; unfold MAXV; try lia;
      try (intros [|[|dim]]; unfold dimv; cbn; try lia; destruct dim; cbn; lia); repeat constructor; lia|]).
    constructor.
Qed.

Lemma sample_opens : opens_by sample 20.
Proof. constructor; cbn; repeat constructor; cbn; lia. Qed.

Lemma mat_nonneg m : Forall (fun x => 0 <= x) (m_data m) -> forall a b, 0 <= m_at m a b.
Proof. intros H a b. apply nth_nonneg. exact H. Qed.

Lemma sample_durs : nonneg_durs sample.
Proof.
  intros profile a b. unfold p_dur. apply mat_nonneg. cbn [sample p_durs].
  destruct profile as [|[|[|p]]]; cbn; repeat constructor; lia.
Qed.
Lemma sample_dists : nonneg_dists sample.
Proof.
  intros profile a b. unfold p_dist. apply mat_nonneg. cbn [sample p_dists].
  destruct profile as [|[|[|p]]]; cbn; repeat constructor; lia.
Qed.
