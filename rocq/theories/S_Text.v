(** What a user relies on about text registration, over the log of observations (newest first). *)
From Verif Require Import GoInt M_Packs M_Text.

(** the packs of a kind given to the queue since that kind's cache was last cleared, newest first *)
Fixpoint since_clear (k : kind) (log : list tevent) : list text_pack :=
  match log with
  | [] => []
  | EvClear k' :: older => if kind_eqb k k' then [] else since_clear k older
  | EvOffer k' p _ :: older => if kind_eqb k k' then p :: since_clear k older else since_clear k older
  end.
(** those that the queue accepted *)
Fixpoint queued_since_clear (k : kind) (log : list tevent) : list text_pack :=
  match log with
  | [] => []
  | EvClear k' :: older => if kind_eqb k k' then [] else queued_since_clear k older
  | EvOffer k' p room :: older =>
      if kind_eqb k k' && room then p :: queued_since_clear k older else queued_since_clear k older
  end.

(** the newest [n] elements *)
Definition newest {A} (n : Z) (l : list A) : list A := firstn (Z.to_nat n) l.

(** The name under which the collector files each kind of text (the collector's protocol constants), and how many
    texts of a kind the agent remembers having sent. *)
Definition wire_type (k : kind) : gostring :=
  of_string (match k with
  | KService => "service"
  | KObject => "object"
  | KReferer => "referer"
  | KUserAgent => "ua"
  | KMethod => "method"
  | KApicall => "apicall"
  | KError => "error"
  | KLogin => "login"
  | KDesc => "desc"
  | KStackElement => "stackelem"
  | KHashMsg => "hmsg"
  end)%string.
Definition cache_capacity (k : kind) : Z := if kind_eqb k KObject then 100 else 10000.
