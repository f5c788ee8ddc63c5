(** Specification for C89: the application without the agent. *)
From Verif Require Import GoInt M_Trace M_Defer.

(** the program with its tracing calls taken out *)
Fixpoint plain {A} (P : app A) : code A :=
  match P with
  | PDone => Done
  | PAct f k => Act f (plain k)
  | PTest c a b => Test c (plain a) (plain b)
  | PCall f k => Call (plain f) (plain k)
  | PDefer f k => Defer (plain f) (plain k)
  | PRecover k => Recover (fun r => plain (k r))
  | PTrace _ k => plain k
  | PDeferTrace _ k => plain k
  end.


(** what can be seen of a panic reported by the agent *)
Definition reported {A} (g : gst A) (v stack : gostring) (g' : gst A) : Prop :=
  exists al, s_sent g' = al :: s_sent g /\
    M_Packs.al_Level al = 3 /\ M_Packs.al_Title al = of_string "Panic" /\ M_Packs.al_Message al = v ++ of_string " - " ++ stack /\
    M_Packs.al_ObjType al = s_type g /\ M_Packs.al_ObjHash al = s_obj g /\ M_Packs.al_Time al = 0 /\ M_Packs.al_Tags al = [] /\
    s_out g' = (of_string "[scouter][panic]" ++ v ++ [10] ++ stack) :: s_out g.
