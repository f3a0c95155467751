(** What the server sends (C91). *)
From Coq Require Import Ascii String ZArith NArith Bool Lia ZifyBool List.
From Verif Require Import GoStr SpecText Site SpecSite SiteProofs ReferProofs.
Import ListNotations.
Open Scope Z_scope.

(** ** C91: what the server sends.  ws are the names of the programs in the folder wasm. *)
Theorem C91_arrives : forall ws p l to, Forall program ws -> parts_of p l -> leads [] l to ->
  exists n a, (n <= 4)%nat /\ ends ws n p a /\ arrives ws to (slash_last p) a /\ (forall n' a', ends ws n' p a' -> n' = n /\ a' = a) /\
    forall k, (4 <= k)%nat -> follow k ws p = a.
Proof. exact (fun ws p l to P => any_arrives ws P p l to). Qed.
Print Assumptions C91_arrives.
Theorem C91_paths : forall p, exists l to, parts_of p l /\ leads [] l to.
Proof. exact (fun p => match parts_exist p with ex_intro _ l L => match leads_exist l with ex_intro _ to T => ex_intro _ l (ex_intro _ to (conj L T)) end end). Qed.
Print Assumptions C91_paths.
Theorem C91_sent : forall ws w f p, Forall program ws -> serve ws p = Sent w f <-> sent_at ws w f p.
Proof. exact (fun ws w f p P => sent_exactly ws P w f p). Qed.
Print Assumptions C91_sent.
Theorem C91_listed : forall ws p x, Forall program ws -> serve ws p = Listed x <->
  p = $"/css/" /\ x = [$"bootstrap.min.css"; $"index.css"] \/ p = $"/javascript/" /\ x = [$"index.js"; $"sfomuseum.golang.wasm.bundle.js"] \/ p = $"/wasm/" /\ in_order ws x.
Proof. exact (fun ws p x P => listed_exactly ws P p x). Qed.
Print Assumptions C91_listed.
Theorem C91_no_fault : forall ws p, Forall program ws -> serve ws p <> Fault.
Proof. exact (fun ws p P => no_fault ws P p). Qed.
Print Assumptions C91_no_fault.
(** The client reads a reference as a walk that starts in the folder of the page. *)
Theorem C91_reference : forall q x ref m to, Forall (fun y => ~ In "/"%char y /\ y <> [] /\ y <> $"." /\ y <> $"..") q -> ~ In "/"%char x -> ref <> [] -> parts_of ref m ->
  Forall (fun y => y <> []) (removelast m) -> leads q m to ->
  (In (last m []) [[]; $"."; $".."] -> resolve (folder_path q ++ x) ref = folder_path to) /\
  (~ In (last m []) [[]; $"."; $".."] -> resolve (folder_path q ++ x) ref ++ $"/" = folder_path to).
Proof. exact reference_read. Qed.
Print Assumptions C91_reference.
(** All that the page asks for is there. *)
Theorem C91_page : forall ws p, Forall program ws -> In ($"parse-js.wasm") ws -> serve ws p = Sent Pages ($"index.html") ->
  (forall r, In r [$"css/bootstrap.min.css"; $"css/index.css"; $"javascript/sfomuseum.golang.wasm.bundle.js"; $"javascript/index.js"] -> serve ws (resolve p r) = Sent Pages r) /\
  serve ws (resolve p ($"wasm/parse-js.wasm")) = Sent Programs ($"parse-js.wasm").
Proof. exact page_refs. Qed.
Print Assumptions C91_page.

Example C91_case : let ws := [$"parse-p2.wasm"; $"parse-js.wasm"] in
  Forall program ws /\
  parts_of ($"/a/../css//./index.css/") [[]; $"a"; $".."; $"css"; []; $"."; $"index.css"; []] /\ leads [] [[]; $"a"; $".."; $"css"; []; $"."; $"index.css"; []] [$"css"; $"index.css"] /\
  ends ws 2 ($"/a/../css//./index.css/") (Sent Pages ($"css/index.css")) /\ serve ws ($"/wasm/parse-js.wasm") = Sent Programs ($"parse-js.wasm") /\
  serve ws ($"/") = Sent Pages ($"index.html").
Proof.
  assert (N : forall n, forallb (fun c => ((48 <=? code c) && (code c <=? 57)) || ((97 <=? code c) && (code c <=? 122)) || Ascii.eqb c "." || Ascii.eqb c "-") n = true -> Forall name_byte n).
  { intros n H. rewrite forallb_forall in H. rewrite Forall_forall. intros c I. specialize (H c I). unfold name_byte. rewrite !orb_true_iff, !andb_true_iff, !Ascii.eqb_eq, !Z.leb_le in H. tauto. }
  split; [constructor; [split; [apply N; reflexivity|exists ($"parse-p2"); reflexivity]|constructor; [split; [apply N; reflexivity|exists ($"parse-js"); reflexivity]|constructor]]|].
  split; [split; [reflexivity|split; [discriminate|]]|].
  { assert (Q : forall x, existsb is_slash x = false -> ~ In "/"%char x) by (intros x H I; apply not_true_iff_false in H; apply H; apply existsb_exists; exists "/"%char; auto).
    repeat (constructor; [apply Q; reflexivity|]). constructor. }
  split.
  { apply ld_stay; [auto|]. apply ld_down; try discriminate. apply (ld_up [] ($"a")). apply ld_down; try discriminate. apply ld_stay; [auto|]. apply ld_stay; [auto|]. apply ld_down; try discriminate. apply ld_stay; [auto|]. apply ld_end. }
  split; [|split; reflexivity]. eapply en_moved; [reflexivity|]. eapply en_moved; [reflexivity|]. apply en_here; [reflexivity|discriminate].
Qed.
(** Four redirects; index.html after a file, without and with a slash. *)
Example C91_index_case :
  ends [] 4 ($"//index.html/index.html") (Sent Pages ($"index.html")) /\ ends [] 2 ($"/css/index.css/index.html") (Sent Pages ($"css/index.css")) /\
  serve [] ($"/css/index.css/index.html/") = Missing /\ ends [] 1 ($"/css/index.html") (Listed [$"bootstrap.min.css"; $"index.css"]) /\
  ends [] 1 ($"/wasm") (Listed []) /\ serve [] ($"/www.go") = Missing /\ ends [] 1 ($"/../edtf.go") Missing.
Proof.
  split; [|split; [|split; [|split; [|split; [|split]]]]].
  - do 4 (eapply en_moved; [reflexivity|]). apply en_here; [reflexivity|discriminate].
  - do 2 (eapply en_moved; [reflexivity|]). apply en_here; [reflexivity|discriminate].
  - reflexivity.
  - eapply en_moved; [reflexivity|]. apply en_here; [reflexivity|discriminate].
  - eapply en_moved; [reflexivity|]. apply en_here; [reflexivity|discriminate].
  - reflexivity.
  - eapply en_moved; [reflexivity|]. apply en_here; [reflexivity|discriminate].
Qed.
Example C91_reference_case :
  resolve (folder_path [$"a"; $"b"] ++ $"c") ($"../d/.") = $"/a/d/" /\ leads [$"a"; $"b"] [$".."; $"d"; $"."] [$"a"; $"d"] /\ folder_path [$"a"; $"d"] = $"/a/d/" /\
  resolve ($"/a/b/c") ($"../../../d") = $"/d" /\ resolve ($"/a/b/c") ($"..") = $"/a/".
Proof.
  split; [reflexivity|]. split; [|repeat split]. apply (ld_up [$"a"] ($"b")). apply ld_down; try discriminate. apply ld_stay; [auto|]. apply ld_end.
Qed.
