(** Requests as they are written (C93). *)
From Coq Require Import Ascii String ZArith NArith Bool Lia ZifyBool List.
From Verif Require Import GoStr SpecText Site SpecSite SiteProofs Target SpecTarget TargetProofs SpellProofs.
Import ListNotations.
Open Scope Z_scope.

(** ** C93: requests as they are written.  ws are the names of the programs in the folder wasm. *)
Theorem C93_targets : forall s, exists raw t, target s raw t /\ forall raw' t', target s raw' t' -> raw' = raw /\ t' = t.
Proof. exact target_only. Qed.
Print Assumptions C93_targets.
Theorem C93_path : forall raw p q, encodes raw p -> encodes raw q -> p = q.
Proof. exact encodes_one. Qed.
Print Assumptions C93_path.
Theorem C93_usual : forall p, exists raw, usual raw p /\ forall raw', usual raw' p -> raw' = raw /\ encodes raw' p.
Proof. exact usual_exists. Qed.
Print Assumptions C93_usual.
(** 400 exactly for control bytes and bad escapes. *)
Theorem C93_refused : forall ws s, serve_target ws s = None <-> Exists control_byte s \/ forall raw t p, target s raw t -> ~ encodes raw p.
Proof. exact refused_exactly. Qed.
Print Assumptions C93_refused.
(** Otherwise the answer is that to the path, unless the folder wasm is written with escapes. *)
Theorem C93_answer : forall ws s raw t p, Forall program ws -> target s raw t -> Forall (fun c => ~ control_byte c) s -> encodes raw p ->
  ((forall x, p = $"/wasm/" ++ x -> exists y, raw = $"/wasm/" ++ y) \/ exists x, serve ws p = Moved ("/"%char :: x)) ->
  exists a, serve_target ws s = Some a /\ like t (serve ws p) a.
Proof. exact target_answer. Qed.
Print Assumptions C93_answer.
Theorem C93_hidden : forall ws s raw t p x, Forall program ws -> target s raw t -> Forall (fun c => ~ control_byte c) s -> encodes raw p -> p = $"/wasm/" ++ x ->
  ~ (exists y, raw = $"/wasm/" ++ y) -> ~ (exists y, serve ws p = Moved ("/"%char :: y)) -> serve_target ws s = Some Missing.
Proof. exact target_hidden. Qed.
Print Assumptions C93_hidden.
(** Which targets are answered by a file, and that the page finds what it asks for. *)
Theorem C93_sent : forall ws s w f, Forall program ws -> (serve_target ws s = Some (Sent w f) <->
  exists raw t p, target s raw t /\ Forall (fun c => ~ control_byte c) s /\ encodes raw p /\ sent_at ws w f p /\ (w = Programs -> exists y, raw = $"/wasm/" ++ y)).
Proof. exact target_sent. Qed.
Print Assumptions C93_sent.
Theorem C93_page : forall ws s, Forall program ws -> In ($"parse-js.wasm") ws -> absolute s -> serve_target ws s = Some (Sent Pages ($"index.html")) ->
  (forall r, In r [$"css/bootstrap.min.css"; $"css/index.css"; $"javascript/sfomuseum.golang.wasm.bundle.js"; $"javascript/index.js"] -> serve_target ws (next_target s r) = Some (Sent Pages r)) /\
  serve_target ws (next_target s ($"wasm/parse-js.wasm")) = Some (Sent Programs ($"parse-js.wasm")).
Proof. exact target_page. Qed.
Print Assumptions C93_page.
(** A path written the usual way, with any query, ends where the path alone does, after as
    many redirects. *)
Theorem C93_follow : forall ws p raw t n a, Forall program ws -> absolute p -> usual raw p -> a_tail t -> Forall (fun c => ~ control_byte c) t ->
  (ends_target ws n (raw ++ t) a <-> ends ws n p a).
Proof. exact usual_follow. Qed.
Print Assumptions C93_follow.
(** So does every other way to write it that escapes no slash and nothing of /wasm/. *)
Theorem C93_spelled : forall ws p raw t n a, Forall program ws -> absolute p -> spells raw p -> (forall x, p = $"/wasm/" ++ x -> exists y, raw = $"/wasm/" ++ y) ->
  a_tail t -> Forall (fun c => ~ control_byte c) t -> (ends_target ws n (raw ++ t) a <-> ends ws n p a).
Proof. exact spelled_follow. Qed.
Print Assumptions C93_spelled.
Theorem C93_usual_spelled : forall raw p, usual raw p -> spells raw p.
Proof. exact usual_spells. Qed.
Print Assumptions C93_usual_spelled.
(** Two ways to write a path can lead to different ends. *)
Theorem C93_spelling_refuted : exists ws s p f, Forall program ws /\ encodes s p /\ ~ In "?"%char s /\ serve ws p = Sent Programs f /\ ends_target ws 0 s Missing.
Proof. exact spelling_differs. Qed.
Print Assumptions C93_spelling_refuted.
Theorem C93_slash_refuted : exists s p l, encodes s p /\ ~ In "?"%char s /\ ends [] 1 p (Listed l) /\ ends_target [] 1 s (Sent Pages ($"index.html")).
Proof. exact slash_differs. Qed.
Print Assumptions C93_slash_refuted.

(** Query kept over four redirects; a path with a space and a percent sign. *)
Example C93_case :
  target ($"/wasm?a=1") ($"/wasm") ($"?a=1") /\ encodes ($"/wasm") ($"/wasm") /\ Forall (fun c => ~ control_byte c) ($"/wasm?a=1") /\
  serve_target [] ($"/wasm?a=1") = Some (Moved ($"/wasm/?a=1")) /\ serve_target [] ($"/css?a=1") = Some (Moved ($"css/?a=1")) /\
  serve_target [] ($"//%41%20b?") = Some (Moved ($"/A%20b")) /\ serve_target [] ($"/%4") = None /\ serve_target [] ($"/a b") = Some Missing /\
  ends_target [] 4 ($"//css/../index.html/index.html?x#y") (Sent Pages ($"index.html")) /\ ends [] 4 ($"//css/../index.html/index.html") (Sent Pages ($"index.html")).
Proof.
  assert (P : forall x, forallb (fun c => negb (Ascii.eqb c "%")) x = true -> encodes x x).
  { induction x as [|c x IH]; intro H; [constructor|]. cbn [forallb] in H. apply andb_true_iff in H. destruct H as (H & T). constructor; [|exact (IH T)]. apply negb_true_iff, Ascii.eqb_neq in H. exact H. }
  split; [split; [reflexivity|split; [|right; eexists; reflexivity]]|].
  { intro I. apply (in_map code) in I. revert I. vm_compute. intuition discriminate. }
  split; [apply P; reflexivity|]. split; [apply controls; reflexivity|]. do 5 (split; [reflexivity|]). split.
  - do 4 (eapply et_moved; [reflexivity|]). apply et_here; [reflexivity|discriminate].
  - do 4 (eapply en_moved; [reflexivity|]). apply en_here; [reflexivity|discriminate].
Qed.
(** An escaped name in wasm: hidden; not hidden behind a redirect. *)
Example C93_hidden_case : let ws := [$"parse-js.wasm"] in
  serve_target ws ($"/%77asm/parse-js.wasm") = Some Missing /\ ends_target ws 1 ($"/%77asm//parse-js.wasm") (Sent Programs ($"parse-js.wasm")) /\
  serve_target ws ($"/wasm/parse%2djs.wasm?v=2") = Some (Sent Programs ($"parse-js.wasm")) /\ serve_target ws ($"/%63ss/index.css") = Some (Sent Pages ($"css/index.css")).
Proof.
  cbv zeta. split; [reflexivity|]. split; [|split; reflexivity]. eapply et_moved; [reflexivity|]. apply et_here; [reflexivity|discriminate].
Qed.
(** Escapes in a path that leads to a list after one redirect, and to a program. *)
Example C93_spelled_case : let ws := [$"parse-js.wasm"] in
  spells ($"/c%73s/index%2ehtml") ($"/css/index.html") /\ ~ usual ($"/c%73s/index%2ehtml") ($"/css/index.html") /\
  ends_target ws 1 ($"/c%73s/index%2ehtml?q") (Listed [$"bootstrap.min.css"; $"index.css"]) /\ ends ws 1 ($"/css/index.html") (Listed [$"bootstrap.min.css"; $"index.css"]) /\
  ends_target ws 1 ($"/wasm/parse%2djs.wasm/") (Sent Programs ($"parse-js.wasm")).
Proof.
  cbv zeta. split.
  { assert (S : forall x, forallb stays x = true -> spells x x) by (intros x H; apply stays_spells, Forall_forall, forallb_forall, H).
    assert (H : hexit "7" 7 /\ hexit "3" 3 /\ hexit "2" 2 /\ hexit "e" 14) by (repeat split; try lia; left; reflexivity). destruct H as (H7 & H3 & H2 & He).
    apply (spells_app ($"/c") ($"/c") _ ($"ss/index.html")); [apply S; reflexivity|]. apply (sp_hex "7" "3" 7 3 _ ($"s/index.html") H7 H3); [discriminate|].
    apply (spells_app ($"s/index") ($"s/index") _ ($".html")); [apply S; reflexivity|]. apply (sp_hex "2" "e" 2 14 _ ($"html") H2 He); [discriminate|]. apply S. reflexivity. }
  split; [intro U; apply usual_escape in U; discriminate U|].
  split; [eapply et_moved; [reflexivity|]; apply et_here; [reflexivity|discriminate]|]. split; [eapply en_moved; [reflexivity|]; apply en_here; [reflexivity|discriminate]|].
  eapply et_moved; [reflexivity|]. apply et_here; [reflexivity|discriminate].
Qed.
(** The page with a query. *)
Example C93_page_case : let ws := [$"parse-js.wasm"] in
  serve_target ws ($"/?edtf=1985-04/..") = Some (Sent Pages ($"index.html")) /\ next_target ($"/?edtf=1985-04/..") ($"css/index.css") = $"/css/index.css" /\
  serve_target ws ($"/css/index.css") = Some (Sent Pages ($"css/index.css")) /\ serve_target ws (next_target ($"/?edtf=1985-04/..") ($"wasm/parse-js.wasm")) = Some (Sent Programs ($"parse-js.wasm")).
Proof. repeat split. Qed.
