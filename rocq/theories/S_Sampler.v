(** What the sampling settings mean. *)
From Verif Require Import GoInt M_Sampler.

(** The percentage configured for an elapsed time: that of the first step whose limit is above it, the
    "over" percentage if there is none. *)
Definition pct_for (r : rates) (elapsed : Z) : Z :=
  match find (fun p => elapsed <? fst p)
             [(r_Step1Ms r, r_Step1RatePct r); (r_Step2Ms r, r_Step2RatePct r); (r_Step3Ms r, r_Step3RatePct r)] with
  | Some (_, pct) => pct
  | None => r_OverRatePct r
  end.

(** a percentage as a number of outcomes out of 100 *)
Definition clamp_pct (p : Z) : Z := Z.max 0 (Z.min 100 p).

(** the outcomes of the random draw, all equally likely *)
Definition draws : list Z := map Z.of_nat (seq 0 100).

(** number of outcomes with a property *)
Definition outcomes (f : Z -> bool) : Z := zlen (filter f draws).

(** what the discard types of Scouter's protocol mean: everything is sent; xlog and profile are withheld (the xlog of a called service is
    still sent); only the profile is withheld; xlog and profile are withheld for every service *)
Definition keep_all : Z := 1.
Definition drop_all : Z := 2.
Definition drop_profile : Z := 3.
Definition drop_force : Z := 4.
(** the discard types: is the xlog of a transaction of this kind withheld / is its profile withheld by sampling *)
Definition kept (mode : Z) : bool := mode =? keep_all.
