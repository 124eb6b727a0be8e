(** C32: colours and their hexadecimal form.  [plain] and [lower_high] stand for python's
    treatment of characters outside ASCII. *)
From Verif Require Import Base Graph Css IconColor IconColorSpec IconColorProofs.
From Coq Require Import String ZArith NArith Bool List.
Import ListNotations.
Open Scope list_scope.
Open Scope N_scope.

(** printing and reading back *)
Theorem C32_round : forall plain c, real_color c -> from_hex plain (to_hex c) = Ret c.
Proof. exact color_round. Qed.
Print Assumptions C32_round.
(** the printed form *)
Theorem C32_form : forall c, real_color c -> exists t, to_hex c = lit "#" ++ t /\ length t = 6%nat /\ forall x, In x t -> In x upper_digits.
Proof. exact color_shape. Qed.
Print Assumptions C32_form.
(** #RRGGBB, in either case *)
Theorem C32_long : forall plain r1 r2 g1 g2 b1 b2 x1 x2 y1 y2 z1 z2,
  digit_value r1 x1 -> digit_value r2 x2 -> digit_value g1 y1 -> digit_value g2 y2 -> digit_value b1 z1 -> digit_value b2 z2 ->
  from_hex plain (lit "#" ++ [r1; r2; g1; g2; b1; b2]) = Ret (mkColor (16 * x1 + x2) (16 * y1 + y2) (16 * z1 + z2)).
Proof. exact long_form. Qed.
Print Assumptions C32_long.
(** #RGB *)
Theorem C32_short : forall plain r g b x y z, digit_value r x -> digit_value g y -> digit_value b z ->
  from_hex plain (lit "#" ++ [r; g; b]) = Ret (mkColor (17 * x) (17 * y) (17 * z)).
Proof. exact short_form. Qed.
Print Assumptions C32_short.
(** other lengths and other first characters are refused *)
Theorem C32_refused : forall plain s, (forall t, s <> lit "#" ++ t) \/ (length s <> 7%nat /\ length s <> 4%nat) -> s <> [] ->
  from_hex plain s = Raise ValueError.
Proof. exact rejected. Qed.
Print Assumptions C32_refused.
(** finding: other texts of the right length are not all refused *)
Theorem C32_digits_refuted : forall plain, from_hex plain (lit "#+1-2 3") = Ret (mkColor 1 (-2) 3).
Proof. intros. vm_compute. reflexivity. Qed.
Print Assumptions C32_digits_refuted.
(** but a style sheet cannot give such a colour: reading a colour there never fails and
    gives channels from 0 to 255 *)
Theorem C32_style_sheet : forall plain lower_high F (ts : list (token (F := F))),
  exists o, interpret_as_color plain lower_high ts = Ret o /\ forall c, o = Some c -> real_color c.
Proof. exact @interpret_total. Qed.
Print Assumptions C32_style_sheet.
Theorem C32_style_sheet_hex : forall plain lower_high F id v c, (length v = 3%nat \/ length v = 6%nat) -> (forall x, In x v -> exists d, digit_value x d) ->
  from_hex plain (lit "#" ++ v) = Ret c -> interpret_as_color plain lower_high [THash (F := F) id v] = Ret (Some c).
Proof. exact @interpret_hash. Qed.
Print Assumptions C32_style_sheet_hex.
Theorem C32_style_sheet_not_hex : forall plain lower_high F id v, (exists x, In x v /\ forall d, ~ digit_value x d) ->
  interpret_as_color plain lower_high [THash (F := F) id v] = Ret None.
Proof. exact @interpret_not_hex. Qed.
Print Assumptions C32_style_sheet_not_hex.
(** colour keywords have their CSS meaning, in any case, but for nine *)
Theorem C32_names : forall plain lower_high F n h w, In (n, h) css_keywords -> ~ In n odd_names -> same_letters w n ->
  exists c, interpret_as_color plain lower_high [TIdent (F := F) w] = Ret (Some c) /\ to_hex c = h.
Proof. exact @interpret_name. Qed.
Print Assumptions C32_names.
(** finding: gray and sandybrown mean other colours, seven spellings are unknown *)
Theorem C32_names_refuted : forall plain lower_high F,
  In (lit "gray", lit "#808080") css_keywords /\ interpret_as_color plain lower_high [TIdent (F := F) (lit "gray")] = Ret (Some (mkColor 127 127 127)) /\
  In (lit "sandybrown", lit "#F4A460") css_keywords /\ interpret_as_color plain lower_high [TIdent (F := F) (lit "sandybrown")] = Ret (Some (mkColor 250 128 114)) /\
  (forall n, In n [lit "grey"; lit "darkgrey"; lit "darkslategrey"; lit "dimgrey"; lit "lightgray"; lit "lightslategrey"; lit "slategrey"] ->
    In n (map fst css_keywords) /\ interpret_as_color plain lower_high [TIdent (F := F) n] = Ret None).
Proof.
  intros plain lh F. split; [apply (dget_In (lit "gray")); vm_compute; reflexivity|]. split; [vm_compute; reflexivity|].
  split; [apply (dget_In (lit "sandybrown")); vm_compute; reflexivity|]. split; [vm_compute; reflexivity|].
  intros n H. repeat (destruct H as [<-|H]; [split; [apply mem_In; vm_compute; reflexivity|vm_compute; reflexivity]|]). destruct H.
Qed.
Print Assumptions C32_names_refuted.
Example C32_case : to_hex (mkColor 1 171 255) = lit "#01ABFF" /\ real_color (mkColor 1 171 255) /\
  from_hex id (lit "#0aF") = Ret (mkColor 0 170 255) /\ digit_value 97 10 /\ digit_value 65 10 /\
  same_letters (lit "RebeCca") (lit "rebecca") /\
  interpret_as_color (F := unit) id (fun c => [c]) [TIdent (lit "DarkBlue")] = Ret (Some (mkColor 0 0 139)).
Proof.
  split; [vm_compute; reflexivity|]. split; [repeat split; discriminate|]. split; [vm_compute; reflexivity|].
  split; [exists 10%nat; vm_compute; auto|]. split; [exists 10%nat; vm_compute; auto|]. split; [|vm_compute; reflexivity].
  repeat (split; [first [left; reflexivity|right; split; [split; discriminate|reflexivity]]|]). exact I.
Qed.
