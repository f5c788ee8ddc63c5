(** Model of scouterx/common/util/strmatch.go and of the strings functions it calls. *)
From Verif Require Import GoInt M_Util.

(** strings.HasPrefix / HasSuffix / Contains / IndexByte; strmatch.go:84-114 *)
Fixpoint has_prefix (s p : gostring) {struct p} : bool :=
  match p, s with
  | [], _ => true
  | x :: p', y :: s' => (x =? y) && has_prefix s' p'
  | _ :: _, [] => false
  end.
(** strings.HasSuffix: strmatch.go:84-114 *)
Definition has_suffix (s p : gostring) : bool := has_prefix (rev s) (rev p).
(** strings.Contains: strmatch.go:27-114 *)
Fixpoint contains (s p : gostring) : bool :=
  has_prefix s p || match s with [] => false | _ :: s' => contains s' p end.
(** strings.IndexByte: strmatch.go:27-82 *)
Fixpoint index_byte (s : gostring) (b : Z) : option nat :=
  match s with
  | [] => None
  | c :: s' => if c =? b then Some O else option_map S (index_byte s' b)
  end.
(** s[i:j]; strmatch.go:27-114 *)
Definition slice (i j : nat) (s : gostring) : gostring := firstn (j - i) (skipn i s).

(** strmatch.go:9-19 *)
Inductive comp := C_EQU | C_STR | C_STR_MID | C_STR_END | C_MID | C_MID_MID | C_MID_END | C_END | C_ANY.
(** strmatch.go:21-25 *)
Record strmatch := mk_sm { sm_Pattern : gostring; sm_comp : comp; sm_start : gostring; sm_end : gostring; sm_mid : gostring; sm_mid2 : gostring }.

(** strmatch.go:27-81 *)
Definition new_strmatch (p : gostring) : strmatch :=
  if beqb p [42] || beqb p [42; 42] then mk_sm p C_ANY [] [] [] []
  else
    let length := length p in
    if (length <? 2)%nat then mk_sm p C_EQU [] [] p []
    else
      let anyStart := nth 0 p 0 =? 42 in
      let anyEnd := nth (length - 1) p 0 =? 42 in
      (* apos := IndexByte(pattern[1:], '*'); if apos >= 0 { apos++ } *)
      let apos := option_map S (index_byte (skipn 1 p) 42) in
      match apos with
      | Some apos =>
          if (0 <? apos)%nat && (apos <? length - 1)%nat then
            if anyStart && anyEnd then mk_sm p C_MID_MID [] [] (slice 1 apos p) (slice (apos + 1) (length - 1) p)
            else if anyStart then mk_sm p C_MID_END [] (slice (apos + 1) length p) (slice 1 apos p) []
            else if anyEnd then mk_sm p C_STR_MID (slice 0 apos p) [] (slice (apos + 1) (length - 1) p) []
            else mk_sm p C_STR_END (slice 0 apos p) (slice (apos + 1) length p) [] []
          else
            if anyStart && anyEnd then mk_sm p C_MID [] [] (slice 1 (length - 1) p) []
            else if anyStart then mk_sm p C_END [] (slice 1 length p) [] []
            else if anyEnd then mk_sm p C_STR (slice 0 (length - 1) p) [] [] []
            else mk_sm p C_EQU [] [] p []
      | None =>
          if anyStart && anyEnd then mk_sm p C_MID [] [] (slice 1 (length - 1) p) []
          else if anyStart then mk_sm p C_END [] (slice 1 length p) [] []
          else if anyEnd then mk_sm p C_STR (slice 0 (length - 1) p) [] [] []
          else mk_sm p C_EQU [] [] p []
      end.

(** strmatch.go:83-112; the result of strings.Index is only tested for being negative *)
Definition include (m : strmatch) (target : gostring) : bool :=
  match target with
  | [] => false
  | _ =>
    match sm_comp m with
    | C_ANY => true
    | C_EQU => beqb (sm_mid m) target
    | C_STR => has_prefix target (sm_start m)
    | C_STR_MID => has_prefix target (sm_start m) && contains target (sm_mid m)
    | C_STR_END => has_prefix target (sm_start m) && has_suffix target (sm_end m)
    | C_MID => contains target (sm_mid m)
    | C_MID_MID => contains target (sm_mid m) && (contains target (sm_mid2 m) && has_suffix target (sm_end m))
    | C_MID_END => contains target (sm_mid m) && has_suffix target (sm_end m)
    | C_END => has_suffix target (sm_end m)
    end
  end.

(** strmatch.go:119-126: the matchers are built as StrMatch{Pattern: pattern}, every other field
    zero (comp = c_EQU, mid = "") *)
Definition comma_matcher (patterns : gostring) : list strmatch :=
  map (fun p => mk_sm p C_EQU [] [] [] []) (split_byte 44 patterns).

(** strmatch.go:128-135 *)
Definition is_match (ms : list strmatch) (target : gostring) : bool := existsb (fun m => include m target) ms.
