(** Model of /repo/vanillaplusjs/build/css/manips/icons/tokenizer.py, token.py, parser.py
    and command.py (whole files).  As in [Css] the reader is the text that is left; the
    consuming functions imported from css/tokenizer.py are those of [Css].  The parser is a
    generator which is sent the tokens one by one: here it is a function of the list of
    tokens, [Wait] being a generator that still waits when the list ends. *)
From Verif Require Import Base Graph Css PyPath.
From Coq Require Import String ZArith NArith Bool List.
Import ListNotations.
Open Scope list_scope.
Open Scope N_scope.

Section Icon.
Context {F : Type} (float_of : str -> option F).
Context (high_digit : N -> bool) (int_high : str -> option Z).

(** token.py 5-44 *)
Inductive itoken :=
| IWhitespace (v : str) | IComment (v : str) | ILCurly | IRCurly | ILSquare | IRSquare | IComma | IColon
| IString (v : str) | IBadString (v : str) | INumber (v : num (F := F)) | ITrue | IFalse | INull | IIdent (v : str) | IDelim (v : str) | IEof.

(** tokenizer.py 167-172, after the two slashes: up to the end of the line, which is read too *)
Fixpoint line (s : str) : str * str :=
  match s with
  | [] => ([], [])
  | c :: r => if c =? 10 then ([], r) else let '(a, b) := line r in (c :: a, b)
  end.
(** tokenizer.py 148-156 *)
Definition word (v : str) : itoken :=
  if str_eqb v (lit "true") then ITrue
  else if str_eqb v (lit "false") then IFalse
  else if str_eqb v (lit "null") then INull
  else IIdent v.
Definition icon_ident (fuel : nat) (s : str) : res (itoken * str) :=
  match ident_seq high_digit fuel s with Ret (v, rest) => Ret (word v, rest) | Raise e => Raise e end.
(** tokenizer.py 177-183 *)
Definition icon_string (fuel : nat) (q : N) (s : str) : res (itoken * str) :=
  match string_body fuel q s with Ret (b, v, rest) => Ret (if b then IString v else IBadString v, rest) | Raise e => Raise e end.
(** tokenizer.py 186-191; a number that is not there would be [None], which the parser
    cannot take: TypeError *)
Definition icon_number (s : str) : res (itoken * str) :=
  match number float_of high_digit int_high s with Ret (v, _, rest) => Ret (INumber v, rest) | Raise e => Raise e end.

(** tokenizer.py 45-133: one turn of the loop *)
Definition inext (fuel : nat) (c : N) (r : str) : res (itoken * str) :=
  let s := c :: r in
  if (c =? 47) && match r with d :: _ => d =? 47 | [] => false end then
    let '(v, rest) := line (tl r) in Ret (IComment v, rest)
  else if is_space c then let '(w, rest) := span is_space s in Ret (IWhitespace w, rest)
  else if ident_start c then icon_ident fuel s
  else if is_quote c then icon_string fuel c r
  else if c =? 58 then Ret (IColon, r)
  else if c =? 44 then Ret (IComma, r)
  else if c =? 123 then Ret (ILCurly, r)
  else if c =? 125 then Ret (IRCurly, r)
  else if c =? 91 then Ret (ILSquare, r)
  else if c =? 93 then Ret (IRSquare, r)
  else if c =? 46 then if is_number high_digit s then icon_number s else Ret (IDelim [46], r)
  else if is_dec high_digit c then icon_number s
  else if c =? 43 then if is_number high_digit s then icon_number s else Ret (IDelim [43], r)
  else if c =? 45 then
    if is_number high_digit s then icon_number s
    else match ident_sequence s with
         | Raise e => Raise e
         | Ret true => icon_ident fuel s
         | Ret false => Ret (IDelim [45], r)
         end
  else Ret (IDelim [c], r).
Fixpoint itokens (fuel : nat) (s : str) : list itoken * option exn :=
  match s with
  | [] => ([IEof], None)
  | c :: r =>
      match fuel with
      | O => ([], Some OutOfFuel)
      | S k =>
          match inext fuel c r with
          | Raise e => ([], Some e)
          | Ret (t, rest) => let '(l, e) := itokens k rest in (t :: l, e)
          end
      end
  end.
Definition itokenize (s : str) : list itoken * option exn := itokens (2 + length s)%nat s.

(** settings.py 12-35, command.py 7-33 *)
Record setting := mkSetting { active : str; hover : str; disabled : str }.
Record settings := mkSettings { by_default : option setting; by_name : list (str * setting) }.
Inductive button := NoButton | DefaultButton | Buttons (s : settings).
Record command := mkCommand { icon : str; initial : str; colors : option (list str); sizes : option (list str); btn : button }.
(** command.py 35-46 *)
Definition input_icon (name : str) : str := join_path (lit "src") [lit "public"; lit "img"; lit "icons"; name ++ lit ".svg"].
Definition output_folder (name : str) : str := join_path (lit "out") [lit "www"; lit "img"; lit "icons"; name].
Definition web_path (name color : str) : str := lit "/img/icons/" ++ name ++ lit "/" ++ color ++ lit ".svg".

Inductive parsed (A : Type) := Wait | Bad | Out | Done (a : A) (rest : list itoken).
Arguments Wait {A}. Arguments Bad {A}. Arguments Out {A}. Arguments Done {A}.
Definition blank_token (t : itoken) : bool := match t with IWhitespace _ | IComment _ => true | _ => false end.
(** parser.py 84-91 *)
Fixpoint significant (ts : list itoken) : parsed itoken :=
  match ts with
  | [] => Wait
  | t :: r => if blank_token t then significant r else Done t r
  end.
Definition bind {A B} (p : parsed A) (k : A -> list itoken -> parsed B) : parsed B :=
  match p with Done a r => k a r | Wait => Wait | Bad => Bad | Out => Out end.
(** parser.py 94-127; [Out]: the fuel is used up *)
Fixpoint string_list (fuel : nat) (need_comma : bool) (ts : list itoken) : parsed (list str) :=
  match fuel with
  | O => Out
  | S k =>
      bind (significant ts) (fun t r =>
        match t with
        | IRSquare => Done [] r
        | _ =>
            if need_comma then match t with IComma => string_list k false r | _ => Bad end
            else match t with IString v => bind (string_list k true r) (fun l r2 => Done (v :: l) r2) | _ => Bad end
        end)
  end.
(** parser.py 130-191 *)
Fixpoint button_list (fuel : nat) (need_comma : bool) (acc : settings) (ts : list itoken) : parsed settings :=
  match fuel with
  | O => Out
  | S k =>
      bind (significant ts) (fun t r =>
        match t with
        | IRCurly => Done acc r
        | _ =>
            if need_comma then match t with IComma => button_list k false acc r | _ => Bad end
            else match t with
              | IString name =>
                  bind (significant r) (fun t2 r2 =>
                    match t2 with
                    | IColon =>
                        bind (significant r2) (fun t3 r3 =>
                          match t3 with
                          | ILSquare =>
                              bind (string_list k false r3) (fun l r4 =>
                                match l with
                                | [a; h; d] =>
                                    button_list k true
                                      (if str_eqb name (lit "default") then mkSettings (Some (mkSetting a h d)) (by_name acc)
                                       else mkSettings (by_default acc) (dset name (mkSetting a h d) (by_name acc))) r4
                                | _ => Bad
                                end)
                          | _ => Bad
                          end)
                    | _ => Bad
                    end)
              | _ => Bad
              end
        end)
  end.
(** parser.py 39-45 and 47-53 *)
Definition list_or (fuel : nat) (all : str) (ts : list itoken) : parsed (option (list str)) :=
  bind (significant ts) (fun t r =>
    match t with
    | ILSquare => bind (string_list fuel false r) (fun l r2 => Done (Some l) r2)
    | IIdent v => if str_eqb v all then Done None r else Bad
    | _ => Bad
    end).
(** parser.py 55-76; the text after the command is not read *)
Definition button_part (fuel : nat) (ts : list itoken) : parsed button :=
  bind (significant ts) (fun t r =>
    match t with
    | IEof => Done DefaultButton r
    | ILCurly => bind (button_list fuel false (mkSettings None []) r) (fun s r2 => Done (Buttons s) r2)
    | IIdent v =>
        if str_eqb v (lit "no-btn") then Done NoButton r
        else if str_eqb v (lit "btn") || str_eqb v (lit "default") then Done DefaultButton r
        else Bad
    | _ => Bad
    end).
Definition ident_part (ts : list itoken) : parsed str :=
  bind (significant ts) (fun t r => match t with IIdent v => Done v r | _ => Bad end).
(** parser.py 9-81 *)
Definition parse (ts : list itoken) : parsed command :=
  let fuel := S (length ts) in
  bind (ident_part ts) (fun name r =>
  bind (ident_part r) (fun init r =>
  bind (list_or fuel (lit "all-colors") r) (fun cs r =>
  bind (list_or fuel (lit "all-sizes") r) (fun ss r =>
  bind (button_part fuel r) (fun b r => Done (mkCommand name init cs ss b) r))))).
(** manip.py 502-513: [Ret None] if the tokens end before the command does *)
Definition command_of (text : str) : res (option command) :=
  let '(ts, e) := itokenize text in
  match parse ts with
  | Done c _ => Ret (Some c)
  | Bad => Raise ValueError
  | Out => Raise OutOfFuel
  | Wait => match e with Some e => Raise e | None => Ret None end
  end.
End Icon.
Arguments Wait {F A}. Arguments Bad {F A}. Arguments Out {F A}. Arguments Done {F A}.
