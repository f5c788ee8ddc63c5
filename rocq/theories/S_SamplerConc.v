(** Specification for C86. *)
From Verif Require Import GoInt M_Sampler.

(** [x] has, in field [f], the value one of [l] has *)
Definition from {A B} (l : list A) (f : A -> B) (x : A) : Prop := exists a, In a l /\ f x = f a.
Definition rates_mixed (l : list rates) (r : rates) : Prop :=
  from l r_Enabled r /\ from l r_OnlyProfile r /\ from l r_Step1Ms r /\ from l r_Step1RatePct r /\ from l r_Step2Ms r /\
  from l r_Step2RatePct r /\ from l r_Step3Ms r /\ from l r_Step3RatePct r /\ from l r_OverRatePct r.
(** settings every one of which is from one of the configurations [l] *)
Definition mixed (l : list sconf) (c : sconf) : Prop :=
  from l sc_DiscardServicePatterns c /\ from l sc_DiscardServiceShowError c /\ from l sc_ExcludePatterns c /\
  rates_mixed (map sc_Sampling l) (sc_Sampling c) /\
  rates_mixed (map sc_Patterned l) (sc_Patterned c) /\ from l sc_PatternedServicePatterns c /\
  rates_mixed (map sc_Patterned2 l) (sc_Patterned2 c) /\ from l sc_Patterned2ServicePatterns c /\
  rates_mixed (map sc_Patterned3 l) (sc_Patterned3 c) /\ from l sc_Patterned3ServicePatterns c.

(** the two configurations sample alike but for the value of (at most) one of the settings *)
Definition same_but (r r' : rates) (n : nat) : Prop :=
  (n <> 0%nat -> r_Enabled r = r_Enabled r') /\ (n <> 1%nat -> r_OnlyProfile r = r_OnlyProfile r') /\
  (n <> 2%nat -> r_Step1Ms r = r_Step1Ms r') /\ (n <> 3%nat -> r_Step1RatePct r = r_Step1RatePct r') /\
  (n <> 4%nat -> r_Step2Ms r = r_Step2Ms r') /\ (n <> 5%nat -> r_Step2RatePct r = r_Step2RatePct r') /\
  (n <> 6%nat -> r_Step3Ms r = r_Step3Ms r') /\ (n <> 7%nat -> r_Step3RatePct r = r_Step3RatePct r') /\
  (n <> 8%nat -> r_OverRatePct r = r_OverRatePct r').
