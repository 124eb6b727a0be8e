(** C33, C34, C35 and C47: the handlers that copy, hash and generate constants. *)
From Verif Require Import Base Graph PyPath Handlers HandlersSpec HandlersProofs.
From Coq Require Import String ZArith NArith Bool List Permutation.
Import ListNotations.
Open Scope list_scope.
Open Scope N_scope.

(** Two files below src/public that have an output in common are the same file, or one
    is named like the hash file of the other. *)
Theorem C33_distinct : forall a b t, In t (produces (copy_and_hash_scan (lit "src/public/" ++ a))) -> In t (produces (copy_and_hash_scan (lit "src/public/" ++ b))) ->
  a = b \/ a = b ++ lit ".hash" \/ b = a ++ lit ".hash".
Proof. exact produces_collide. Qed.
Print Assumptions C33_distinct.
Example C33_distinct_ok : In (lit "out/www/x.txt") (produces (copy_and_hash_scan (lit "src/public/" ++ lit "x.txt"))).
Proof. left. reflexivity. Qed.
(** Every output is below out/www. *)
Theorem C33_inside : forall p t, In t (produces (copy_and_hash_scan p)) -> exists r, t = lit "out/www/" ++ r.
Proof. exact produces_inside. Qed.
Print Assumptions C33_inside.
Example C33_inside_ok : In (lit "out/www/x.txt.hash") (produces (copy_and_hash_scan (lit "src/public/x.txt"))).
Proof. right. left. reflexivity. Qed.
(** A file and a file named like its hash have an output in common; so has a file outside
    src/public whose path begins with the same letters. *)
Theorem C33_hash_refuted : exists t, In t (produces (copy_and_hash_scan (lit "src/public/a.txt"))) /\ In t (produces (copy_and_hash_scan (lit "src/public/a.txt.hash"))).
Proof. exact hash_collision. Qed.
Print Assumptions C33_hash_refuted.
Theorem C33_prefix_refuted : exists a b t, a <> b /\ In t (produces (copy_and_hash_scan a)) /\ In t (produces (copy_and_hash_scan b)) /\ ~ has_start (lit "src/public/") b.
Proof. exact prefix_collision. Qed.
Print Assumptions C33_prefix_refuted.

(** For every file and every state of the output folder: what the build reports is what
    the scan predicted, split into what existed and what did not; only the missing
    outputs are written. *)
Theorem C34_copy : forall sha p f b f', copy_and_hash_build sha p f = Ret (b, f') -> agrees (copied_or_hashed sha f p) (copy_and_hash_scan p) f b f'.
Proof. exact build_agrees. Qed.
Print Assumptions C34_copy.
Example C34_copy_ok : exists b f', copy_and_hash_build (fun d => 35 :: d) (lit "src/public/a.txt") ex_fs = Ret (b, f') /\ produced b = [lit "out/www/a.txt"; lit "out/www/a.txt.hash"].
Proof. exact ex_build_ok. Qed.
Theorem C34_contents : forall sha r data f b f', copy_and_hash_build sha (lit "src/public/" ++ r) f = Ret (b, f') -> dget (lit "src/public/" ++ r) f = Some data ->
  (dget (lit "out/www/" ++ r) f = None -> dget (lit "out/www/" ++ r) f' = Some data) /\
  (dget (lit "out/www/" ++ r ++ lit ".hash") f = None -> dget (lit "out/www/" ++ r ++ lit ".hash") f' = Some (sha data)).
Proof. exact build_contents. Qed.
Print Assumptions C34_contents.
(** It fails only if the source is missing and an output has to be written. *)
Theorem C34_fails : forall sha p f e, copy_and_hash_build sha p f = Raise e -> e = FileNotFoundError /\ dget p f = None /\ exists t, In t (produces (copy_and_hash_scan p)) /\ dget t f = None.
Proof. exact build_fails. Qed.
Print Assumptions C34_fails.
Example C34_fails_ok : copy_and_hash_build (fun d => d) (lit "src/public/c.txt") ex_fs = Raise FileNotFoundError.
Proof. vm_compute. reflexivity. Qed.
(** The same for the file of constants. *)
Theorem C34_constants : forall sha c is_dev f b f' p, p = c_relpath c -> constants_build sha c is_dev p f = Ret (b, f') ->
  exists t s, constants_scan c p = Ret s /\ copy_target p = Some t /\ produces s = [t; t ++ lit ".hash"] /\ Permutation (produced b ++ reused b) (produces s) /\ children b = dependencies s /\
    (forall x, In x (produced b) <-> In x (produces s) /\ dget x f = None) /\ (forall x, ~ In x (produced b) -> dget x f' = dget x f) /\
    (dget t f = None -> dget t f' = Some (constants_text (merged c is_dev))) /\
    (forall text, dget t f' = Some text -> dget (t ++ lit ".hash") f = None -> dget (t ++ lit ".hash") f' = Some (sha text)).
Proof. exact constants_agree. Qed.
Print Assumptions C34_constants.

(** The generated script binds each key of the shared constants and of the mode once;
    the value of the mode wins; env:// values are replaced. *)
Theorem C35_bindings : forall sha env relpath shared dev prod c (is_dev : bool) f b f' t, unique shared -> unique dev -> unique prod -> load_constants env relpath shared dev prod = Ret c ->
  copy_target relpath = Some t -> dget t f = None -> constants_build sha c is_dev relpath f = Ret (b, f') ->
  exists l, unique l /\ (forall k v, In (k, v) l <-> bound env shared (if is_dev then dev else prod) k v) /\ dget t f' = Some (match l with [] => [10] | _ => script_of l end).
Proof. exact constants_script. Qed.
Print Assumptions C35_bindings.
Example C35_bindings_ok : exists c b f', load_constants ex_env (lit "src/public/c.js") ex_shared ex_dev [] = Ret c /\
  constants_build (fun d => 35 :: d) c true (lit "src/public/c.js") [] = Ret (b, f') /\
  dget (lit "out/www/c.js") f' = Some (lit "export const HOST = ""x.org"";" ++ [10] ++ lit "export const DEBUG = true;" ++ [10] ++ lit "export const PORT = 80;" ++ [10]).
Proof. exact ex_constants. Qed.
Example C35_bindings_unique : unique ex_shared /\ unique ex_dev.
Proof. exact ex_unique. Qed.
(** Loading fails only for a missing environment variable. *)
Theorem C35_load : forall env relpath shared dev prod,
  (exists c, load_constants env relpath shared dev prod = Ret c) \/
  (load_constants env relpath shared dev prod = Raise KeyError /\ exists k name, In (k, VStr (lit "env://" ++ name)) (shared ++ dev ++ prod) /\ env name = None).
Proof. exact constants_load. Qed.
Print Assumptions C35_load.
Example C35_load_missing : load_constants (fun _ => None) [] ex_shared [] [] = Raise KeyError.
Proof. vm_compute. reflexivity. Qed.
(** The literal written for a text denotes the text, for ASCII without NUL before a digit. *)
Theorem C35_literal : forall v, safe_text v -> js_literal (jsify (VStr v)) v.
Proof. exact literal_safe. Qed.
Print Assumptions C35_literal.
Example C35_literal_ok : safe_text (lit "a'b" ++ [10]).
Proof. exact ex_safe. Qed.
(** Truth values and whole numbers are written as such. *)
Theorem C35_plain_values : forall v, (exists b, v = VBool b) \/ (exists z, v = VInt z) -> plain_literal v (jsify v).
Proof. exact plain_values. Qed.
Print Assumptions C35_plain_values.
Example C35_plain_values_text : jsify (VInt (-7)%Z) = lit "-7".
Proof. vm_compute. reflexivity. Qed.
(** A literal denotes one text; that of "café" is read as "cafe9". *)
Theorem C35_one_value : forall t v w, js_literal t v -> js_literal t w -> w = v.
Proof. exact literal_fun. Qed.
Print Assumptions C35_one_value.
Theorem C35_accent_refuted : js_literal (jsify (VStr (lit "caf" ++ [233]))) (lit "cafe9").
Proof. exact accent_lost. Qed.
Print Assumptions C35_accent_refuted.

(** Every file belongs to exactly one handler, the one used by scan and by build. *)
Theorem C47_dispatch : forall constants p, belongs constants p (scan_with constants p) /\ build_with constants p = scan_with constants p /\ forall h, belongs constants p h -> h = scan_with constants p.
Proof. exact (fun c p => conj (belongs_scan c p) (conj (eq_sym (dispatch_same c p)) (fun h H => belongs_one c p _ _ H (belongs_scan c p)))). Qed.
Print Assumptions C47_dispatch.
Example C47_dispatch_text : scan_with (lit "src/public/c.js") (lit "src/public/a.images.json") = ImageGlue /\ scan_with (lit "src/public/c.js") (lit "src/partials/a.images.js") = Script.
Proof. split; vm_compute; reflexivity. Qed.
