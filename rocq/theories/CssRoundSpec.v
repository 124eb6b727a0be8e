(** Vocabulary for C22 and C23: which tokens survive being written and read again,
    given the text that follows them. *)
From Verif Require Import Base Css CssSpec.
From Coq Require Import List NArith ZArith Bool.
Import ListNotations.
Open Scope list_scope.
Open Scope N_scope.

Definition printable (c : N) : Prop := 32 <= c <= 126.
(** no name goes on in [rest] *)
Definition stops (rest : str) : Prop :=
  (forall c t, rest = c :: t -> ~ name_char c) /\ (forall c t, rest = 92 :: c :: t -> c = 10).
(** the (at least) three characters of [s] start a name *)
Definition name_follows (s : str) : Prop := exists a b c t, s = a :: b :: c :: t /\
  (name_start a \/ (a = 45 /\ (name_start b \/ b = 45 \/ (b = 92 /\ c <> 10))) \/ (a = 92 /\ b <> 10)).

Section Spec.
Context {F : Type} (float_of : str -> option F) (float_str : F -> str) (high_digit : N -> bool).
Notation dec := (dec high_digit).
(** a sign or a dot that starts a number *)
Definition number_follows (s : str) : Prop := exists a b c t, s = a :: b :: c :: t /\
  (((a = 43 \/ a = 45) /\ (dec b \/ (b = 46 /\ dec c))) \/ (a = 46 /\ dec b)).
(** a name: a letter or the like, or a hyphen and then one or another hyphen *)
Definition name (v : str) : Prop := Forall name_char v /\ exists a r, v = a :: r /\
  ((name_start a /\ ~ dec a) \/ (a = 45 /\ exists b t, r = b :: t /\ ((name_start b /\ ~ dec b) \/ b = 45))).
(** nothing in [rest] continues a number *)
Definition number_ends (rest : str) : Prop :=
  (forall c t, rest = c :: t -> ~ dec c) /\
  (forall c t, rest = 46 :: c :: t -> ~ dec c) /\
  (forall e c t, rest = e :: c :: t -> e = 101 \/ e = 69 -> ~ dec c) /\
  (forall e s c t, rest = e :: s :: c :: t -> e = 101 \/ e = 69 -> s = 43 \/ s = 45 -> ~ dec c).
(** an integer, or a float that [str] writes with a fraction or an exponent and [float] reads back *)
Definition good_num (v : @num F) (float : bool) : Prop :=
  match v with
  | NInt _ => float = false
  | NFloat f => float = true /\ float_of (float_str f) = Some f /\
      exists sg ds fr ex, float_str f = sg ++ ds ++ fr ++ ex /\ sign sg /\ Forall digit ds /\ ds <> [] /\
        (fr = [] \/ exists fs, fr = 46 :: fs /\ fs <> [] /\ Forall digit fs) /\
        (ex = [] \/ exists e esg es, ex = e :: esg ++ es /\ (e = 101 \/ e = 69) /\ sign esg /\ es <> [] /\ Forall digit es) /\
        (fr <> [] \/ ex <> [])
  end.
Definition starts (p s : str) : Prop := exists t, s = p ++ t.
(** the token survives when [rest] is written after it *)
Definition fits (t : @token F) (rest : str) : Prop :=
  match t with
  | TWhitespace v => v <> [] /\ Forall space v /\ (forall c r, rest = c :: r -> ~ space c)
  | TString v => Forall printable v
  | THash i v => v <> [] /\ Forall name_char v /\ stops rest /\ (i = true <-> name_follows (v ++ rest))
  | TDelim v => exists c, v = [c] /\ delim_char c /\
      (c = 47 -> ~ starts [42] rest) /\
      (c = 35 -> rest <> [] /\ stops rest) /\
      (c = 43 \/ c = 45 \/ c = 46 -> ~ number_follows (c :: rest)) /\
      (c = 45 -> ~ name_follows (c :: rest) /\ ~ starts [45; 62] rest) /\
      (c = 60 -> ~ starts [33; 45; 45] rest) /\
      (c = 64 -> rest <> [] /\ ~ name_follows rest) /\
      (c = 92 -> forall d r, rest = d :: r -> d = 10)
  | TNumber v f => good_num v f /\ rest <> [] /\ number_ends rest /\ ~ name_follows rest /\ ~ starts [37] rest
  | TPercentage v f => good_num v f
  | TDimension v f u => good_num v f /\ Forall name_char u /\ name_follows (u ++ rest) /\ number_ends (u ++ rest) /\ u <> [] /\ stops rest
  | TIdent v => name v /\ stops rest /\ ~ starts [40] rest /\ (starts [45] v -> name_follows (v ++ rest) /\ ~ starts [45; 45; 62] (v ++ rest))
  | TFunction v => name v /\ (is_url v -> exists q r, (q = 34 \/ q = 39) /\ (rest = q :: r \/ exists w, space w /\ rest = w :: q :: r))
  | TUrl v => Forall (fun c => 33 <= c <= 126 /\ c <> 41) v
  | TAt v => name v /\ stops rest /\ name_follows (v ++ rest)
  | TComment v => forall a b, v <> a ++ 42 :: 47 :: b
  | TBadString _ | TEof => False
  | _ => True
  end.
(** every token of the list survives in front of the text of the following ones *)
Fixpoint separable (ts : list (@token F)) : Prop :=
  match ts with
  | [] => True
  | t :: r => fits t (serialize_many float_str r) /\ separable r
  end.
(** tokens that are written as they were spelled: no number, string or url, and no
    construct cut off by the end of the text *)
Definition copied (t : @token F) (p : str) : Prop :=
  match t with
  | TString _ | TBadString _ | TNumber _ _ | TPercentage _ _ | TDimension _ _ _ | TUrl _ | TBadUrl => False
  | TDelim v => length p = 1%nat
  | TIdent v | TFunction v => ~ is_url v
  | _ => True
  end.
End Spec.
