(** C79: the command line of the server and the address that it listens on. *)
From Coq Require Import Ascii String ZArith NArith Bool List.
From Verif Require Import GoStr SpecCal SpecText SpecForms SpecNotation SpecFlags SpecMessage SpecQuote Quote QuoteProofs Server SpecServer ServerProofs ServerFlags.
Import ListNotations.
Open Scope Z_scope.

(** The address is the host, a colon and the port in decimal; host and port are those of
    the last flags that set them. *)
Theorem C79_address : forall args a, main_server args = inr a <->
  exists h p t, line ($"localhost") 8080 args h p /\ canonical_text t p /\ a = h ++ $":" ++ t.
Proof. exact server_address. Qed.
Print Assumptions C79_address.
Theorem C79_stops : forall args x, main_server args = inl x <-> stops args x.
Proof. exact server_stops. Qed.
Print Assumptions C79_stops.
Theorem C79_texts : forall print x t, stop_text print x = t <-> said print x t.
Proof. exact stop_said. Qed.
Print Assumptions C79_texts.
Theorem C79_plain : forall print v n w, (forall z, 32 <= z <= 126 -> print z = true) -> unescaped v ->
  stop_text print (InvalidValue v n w) = $"invalid value " ++ in_quotes v ++ $" for flag -" ++ n ++ $": " ++ why_text w.
Proof. exact plain_said. Qed.
Print Assumptions C79_plain.
Theorem C79_told : forall print args args' x x', main_server args = inl x -> main_server args' = inl x' -> stop_text print x = stop_text print x' -> x = x'.
Proof. exact stops_told. Qed.
Print Assumptions C79_told.
(** The numbers that can be given for the port, and why the others are refused. *)
Theorem C79_numbers : forall s n, parse_int s = inr n <-> port_text s n.
Proof. exact int_ok. Qed.
Print Assumptions C79_numbers.
Theorem C79_no_numbers : forall s why, parse_int s = inl why <-> no_port s why.
Proof. exact int_fault_spec. Qed.
Print Assumptions C79_no_numbers.
(** A port in its usual form is the one of the address. *)
Theorem C79_usual : forall h t n, canonical_text t n -> in_int64 n -> main_server [$"-host"; h; $"-port"; t] = inr (h ++ $":" ++ t).
Proof. exact usual_address. Qed.
Print Assumptions C79_usual.
(** With a zero in front it is not. *)
Theorem C79_zeros_refuted : exists t n u, dec_digits t n /\ canonical_text u n /\ 0 <= n < 65536 /\ main_server [$"-port"; t] <> inr ($"localhost:" ++ u).
Proof.
  exists ($"010"), 10, ($"10"). split; [|split; [|split; [split; [discriminate|reflexivity]|vm_compute; discriminate]]]; [|left; split; [discriminate|split; [apply (dd_snoc ($"1") 1 0); [apply (dd_one 1); split; discriminate|split; discriminate]|exists "1"%char, ($"0"); split; [reflexivity|discriminate]]]].
  apply (dd_snoc ($"01") 1 0); [|split; discriminate]. apply (dd_snoc ($"0") 0 1); [|split; discriminate]. apply (dd_one 0). split; discriminate.
Qed.
Print Assumptions C79_zeros_refuted.
(** The address is taken apart into the host and the port that were put together, but
    only for these hosts; for the others the server does not start. *)
Theorem C79_hosts : forall t p, canonical_text t p -> forall h g u, split_host_port (h ++ $":" ++ t) = inr (g, u) <-> good_host h g /\ u = t.
Proof. exact split_good. Qed.
Print Assumptions C79_hosts.
Theorem C79_listens : forall args a, main_server args = inr a -> (listen_fault a = None <->
  exists h g p t, line ($"localhost") 8080 args h p /\ good_host h g /\ canonical_text t p /\ a = h ++ $":" ++ t /\ split_host_port a = inr (g, t)).
Proof. exact listens_at. Qed.
Print Assumptions C79_listens.
Theorem C79_colons : forall t p h, canonical_text t p -> In ":"%char h -> (forall u, h <> "["%char :: u) ->
  listen_fault (h ++ $":" ++ t) = Some ($"Failed to start server, listen tcp: address " ++ (h ++ $":" ++ t) ++ $": too many colons in address").
Proof. exact colons_refused. Qed.
Print Assumptions C79_colons.

(** ** Cases *)
Example C79_case_addresses : map main_server [[]; [$"-port"; $"80"]; [$"--host=museum"; $"-port=0x1F_90"; $"-port"; $"9"]; [$"-host"; $"-port"; $"80"]; [$"x"; $"-port"; $"y"]] =
  [inr ($"localhost:8080"); inr ($"localhost:80"); inr ($"museum:9"); inr ($"-port:8080"); inr ($"localhost:8080")].
Proof. vm_compute. reflexivity. Qed.
Example C79_case_line : line ($"localhost") 8080 [$"--host=museum"; $"-port"; $"80"; $"x"] ($"museum") 80.
Proof.
  apply (ln_flag _ _ _ ($"museum") 8080 [$"-port"; $"80"; $"x"]); [apply (of_host _ _ ($"--") ($"museum")); right; reflexivity|].
  apply (ln_flag _ _ _ ($"museum") 80 [$"x"]); [|apply ln_end; apply nf_plain; discriminate].
  apply (of_port_next _ _ ($"-") ($"80") 80); [left; reflexivity|]. apply C79_numbers. vm_compute. reflexivity.
Qed.
Example C79_case_stops : map main_server [[$"-prot=80"]; [$"-port"]; [$"-host=x"; $"-port=eighty"]; [$"-port"; $"08080"]; [$"-port=9223372036854775808"]; [$"---"]; [$"-h"]; [$"-port"; $"1_"]; [$"-port=18446744073709551616x"]] =
  [inl (NotDefined ($"prot")); inl (NeedsArgument ($"port")); inl (InvalidValue ($"eighty") ($"port") Syntax); inl (InvalidValue ($"08080") ($"port") Syntax);
   inl (InvalidValue ($"9223372036854775808") ($"port") Range); inl (BadSyntax ($"---")); inl HelpAsked; inl (InvalidValue ($"1_") ($"port") Syntax); inl (InvalidValue ($"18446744073709551616x") ($"port") Range)].
Proof. vm_compute. reflexivity. Qed.
Example C79_case_text : stop_text latin_print (InvalidValue ($"eighty") ($"port") Syntax) = $"invalid value " ++ in_quotes ($"eighty") ++ $" for flag -port: parse error" /\ unescaped ($"eighty") /\
  forall z, 32 <= z <= 126 -> latin_print z = true.
Proof.
  split; [reflexivity|]. split; [intros c H; cbn in H; repeat destruct H as [<-|H]; try contradiction; (split; [split; discriminate|split; discriminate])|].
  intros z H. unfold latin_print. apply orb_true_iff. left. apply andb_true_iff. split; apply Z.leb_le; apply H.
Qed.
(** A quote, a line break, U+0001, U+00E9, U+2028, U+1F600 and a byte that begins no character. *)
Example C79_case_quotes : quoted_text latin_print ([chr 34; chr 10; chr 1; chr 195; chr 169; chr 226; chr 128; chr 168; chr 240; chr 159; chr 152; chr 128; chr 255; "8"%char])
    ($"\""\n\x01" ++ [chr 195; chr 169] ++ $"\u2028\U0001f600\xff8") /\
  main_server [$"-port=" ++ [chr 255]] = inl (InvalidValue [chr 255] ($"port") Syntax).
Proof. split; [apply loop_iff; vm_compute; reflexivity|vm_compute; reflexivity]. Qed.
(** "010" is eight, and "0_8" is no number. *)
Example C79_case_numbers : map parse_int [$"010"; $"0x1F90"; $"-0b11"; $"+8_080"; $"0o17"; $"0"; $"0_8"; $"_1"; $"1__0"; $"0x"; $""] =
  [inr 8; inr 8080; inr (-3); inr 8080; inr 15; inr 0; inl Syntax; inl Syntax; inl Syntax; inl Syntax; inl Syntax].
Proof. vm_compute. reflexivity. Qed.
Example C79_case_hosts : map split_host_port [$"localhost:8080"; $":80"; $"[::1]:80"; $"::1:80"; $"[::1:80"; $"a]:80"; $"[::1]x:80"; $"[[::1]:80"] =
  [inr ($"localhost", $"8080"); inr ([], $"80"); inr ($"::1", $"80"); inl ($"too many colons in address"); inl ($"missing ']' in address"); inl ($"unexpected ']' in address");
   inl ($"missing port in address"); inl ($"unexpected '[' in address")].
Proof. vm_compute. reflexivity. Qed.
Example C79_case_good : good_host ($"[::1]") ($"::1") /\ forall g, ~ good_host ($"::1") g.
Proof.
  split; [apply (gh_brackets ($"::1")); cbn; intuition discriminate|]. intros g H. remember ($"::1") as s eqn:E. destruct H as [h A _ _|h _ _]; subst; [|discriminate E]. apply A. left. reflexivity.
Qed.
