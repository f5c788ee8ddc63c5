(** Specification vocabulary for dump files: response streams, directories, listings. *)
From Verif Require Import GoInt M_Value M_Dump S_Wire.

(** A collector reading a response: every item is announced by the flag 3, the response ends with the flag 4. *)
Fixpoint p_items {A} (item : parser A) (fuel : nat) : parser (list A) :=
  match fuel with
  | O => pfail
  | S k => flag <- p_u8 ;;
           if flag =? 3 then (x <- item ;; xs <- p_items item k ;; pret (x :: xs))
           else if flag =? 4 then pret []
           else pfail
  end.

(** Reading a whole response made of items. *)
Definition response_items {A} (item : parser A) (bs : bytes) : option (list A) :=
  match p_items item (length bs) bs with Some (xs, []) => Some xs | _ => None end.

(** ".." is not one of the names between slashes *)
Definition no_parent_step (name : gostring) : Prop :=
  forall a b, name = a ++ of_string ".." ++ b ->
    (a = [] \/ exists a', a = a' ++ [47]) -> (b = [] \/ exists b', b = 47 :: b') -> False.

(** [p] is the directory [dir] or something below it *)
Definition inside (dir p : path) : Prop :=
  fst p = fst dir /\ exists rest, snd p = snd dir ++ rest /\ ~ In (of_string "..") rest.

(** directly in the directory *)
Definition directly_in (dir p : path) (name : gostring) : Prop := fst p = fst dir /\ snd p = snd dir ++ [name].

(** a file name as it can appear in a directory *)
Definition plain_name (c : gostring) : Prop :=
  c <> [] /\ c <> of_string "." /\ c <> of_string ".." /\ ~ In 47 c.

(** the agent directory is given by an absolute path *)
Definition absolute (s : gostring) : Prop := exists s', s = 47 :: s'.

(** the name of a profile file *)
Definition profile_name (c : gostring) : Prop := exists stem, c = stem ++ of_string "pprof".
