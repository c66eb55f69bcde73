(** TypesSpec.v -- what the file type table promises, in terms of the printed table. *)
From Verif Require Import GoBase TypesModel.

(** A row of the table can be called [name]. *)
Definition carries (i : FiletypeInfo) (name : bytes) : Prop :=
  fi_name i = name \/ fi_three i = name \/ fi_one i = name.

(** [i] is the first row of [rows] that can be called [name]. *)
Definition first_row (rows : list FiletypeInfo) (name : bytes) (i : FiletypeInfo) : Prop :=
  exists before after, rows = before ++ i :: after /\ carries i name /\
    forall j, In j before -> ~ carries j name.

(** The words of a "|"-separated string. *)
Fixpoint words_aux (s cur : bytes) : list bytes :=
  match s with
  | [] => [cur]
  | c :: s' => if c =? 124 then cur :: words_aux s' [] else words_aux s' (cur ++ [c])
  end.
Definition words (s : bytes) : list bytes := words_aux s [].
