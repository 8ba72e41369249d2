(* Conversations between the client and the home NodeB emulator: C88. *)
From Verif Require Import Base Lai Aper Aper_valid Container RanapTypes RuaTypes RanapTab RuaTab Dispatch Helpers_spec Factory_spec Factory RuaFactory_spec RuaFactory E2e_spec
  IuClient IuClient_spec IuClient_ex Stack Stack_spec Hnb Hnb_spec Talk_spec Talk_proofs.
From Coq Require Import String List.
Local Open Scope list_scope.
Local Open Scope string_scope.
Local Open Scope list_scope.

(* the emulator opens a channel: the client learns its RNC and area, and its
   application is given the Location Updating Request *)
Theorem C88_open : forall E h is_ps, (h_next h < 65536)%N ->
  exists b ranap, hstep E h (HChannel is_ps) = Ok (mkHnb (h_rnc h) (h_ctx h) (if is_ps then h_cs h else Some (mkChan false (h_next h))) ((h_next h + 1) mod 65536)%N, [HSend rua_ppid b]) /\
    holds T_RUA_RUA_PDU b 1 1 0 M_RUA_ConnectIEs (connect_ies is_ps (h_next h) ranap) /\
    forall CN l c a, let w := reach (stack CN) l in let res := exec (stack CN) (OConnectInd c a ranap) w in
      let area := if he_le E then 0x4223%N else 0x2342%N in let ra := area_told emu_plmn (area / 256) (area mod 256) 255 in
      registers (stack CN) (w_st w) (OConnectInd c a ranap) = [mkReg (rnc_told emu_plmn 23) (area_of ra) a] /\
      (quiet CN -> snd res = Some tt) /\
      (snd res = Some tt -> exists t p, added (w_tr w) (w_tr (fst res)) t /\ recvs t = [(p, lu_octets, Some ra, Some area)]).
Proof. exact talk_open. Qed.
Print Assumptions C88_open.
(* the application asks for the identity, and is given it; *)
Theorem C88_identity : forall CN w buf p u sapi nas E h c ps id,
  live (w_st w) p = Some u -> chan_ok h -> h_cs h = Some c -> bytes_ok nas = true -> (N.of_nat (List.length nas) <= 977)%N -> mm nas 0x18 ->
  exists up, exchange CN w (ATx buf (Some p) nas sapi) u E h ps id [HNas nas] up /\
    whenever CN (u_conn u) up (nas_given [5; 0x19; 9; 3; 0x31; 0x91; 6; 0; 0x28; 0x47; 0x11; 0xf2]%N).
Proof. exact talk_identity. Qed.
Print Assumptions C88_identity.
(* authenticates, and is given the SRES of its RAND; *)
Theorem C88_authentication : forall CN w buf p u sapi x y z rand r E h c ps id, sres_ok E ->
  live (w_st w) p = Some u -> chan_ok h -> h_cs h = Some c -> let nas := x :: y :: z :: rand ++ r in
  bytes_ok nas = true -> (N.of_nat (List.length nas) <= 977)%N -> List.length rand = 16 -> mm nas 0x12 ->
  exists up, exchange CN w (ATx buf (Some p) nas sapi) u E h ps id [HNas nas] up /\
    whenever CN (u_conn u) up (nas_given ([5; 0x94]%N ++ he_sres E rand)).
Proof. exact talk_auth. Qed.
Print Assumptions C88_authentication.
(* starts integrity protection, and is told that it has started; *)
Theorem C88_security_mode : forall CN w p u ik ck send_ck new_key E h c ps id,
  live (w_st w) p = Some u -> key_ok ik -> (send_ck = true -> key_ok ck) -> h_cs h = Some c ->
  exists up, exchange CN w (ATxSecModeCmd p ik ck send_ck new_key) u E h ps id [] up /\
    whenever CN (u_conn u) up (event_given CN EvSecurityModeComplete).
Proof. exact talk_security. Qed.
Print Assumptions C88_security_mode.
(* releases the connection, and is told that it is released; *)
Theorem C88_release : forall CN w p u c a E h ch ps id, live (w_st w) p = Some u -> cause_ok (release_cause c) ->
  (a = ATxRelease p c \/ exists timeout, a = ATxReleaseFree p c timeout) -> h_cs h = Some ch ->
  exists up, exchange CN w a u E h ps id [] up /\ whenever CN (u_conn u) up (event_given CN EvIuRelease).
Proof. exact talk_release. Qed.
Print Assumptions C88_release.
(* sends MM Information, upon which the emulator asks for release, the client
   commands it without asking the application, and the application is told of it *)
Theorem C88_information : forall CN w buf p u sapi nas E h c ps id,
  live (w_st w) p = Some u -> chan_ok h -> h_cs h = Some c -> bytes_ok nas = true -> (N.of_nat (List.length nas) <= 977)%N -> mm nas 0x32 ->
  (forall tp, he_tlv E (skipn 2 nas) = Some tp -> tp 0x45%N <> Some [] /\ tp 0x43%N <> Some []) ->
  exists up, exchange CN w (ATx buf (Some p) nas sapi) u E h ps id [HNas nas] up /\
    forall ps' id', whenever CN (u_conn u) up (fun _ t => unit_octets t = [] /\ recvs t = [] /\ events t = [] /\
      exists down up', data_octets t = [(u_conn u, down)] /\ replied E h ps' id' down [] up' /\
        whenever CN (u_conn u) up' (event_given CN EvIuRelease)).
Proof. exact talk_information. Qed.
Print Assumptions C88_information.
(* whatever the paging functions send is reported as paging of the subscriber; the
   emulator has room for 15 digits *)
Theorem C88_paging : forall CN l a imsi tmsi ps E h, paging_call a = Some (imsi, tmsi, ps) -> forallb is_digit imsi = true -> 5 <= List.length imsi <= 16 ->
  opt_ok (fun t => (t < 2 ^ 32)%N) tmsi ->
  let w := reach (stack CN) l in
  exists t, added (w_tr w) (w_tr (fst (exec (stack CN) (OApi a) w))) t /\ data_octets t = [] /\
    forall x b, In (x, b) (unit_octets t) -> unconnected_gives E h b [HPaging (firstn 15 imsi)].
Proof. exact talk_paging. Qed.
Print Assumptions C88_paging.
(* the emulator resets a domain: the client acknowledges for that domain, and the
   emulator ignores that *)
Theorem C88_reset : forall E h is_ps, exists b ranap, send_reset is_ps = Ok [HSend rua_ppid b] /\ unconnected b ranap /\
  forall CN w a, exists t ack, added (w_tr w) (w_tr (fst (exec (stack CN) (OUnitdataInd a ranap) w))) t /\ snd (exec (stack CN) (OUnitdataInd a ranap) w) = Some tt /\
    unit_octets t = [(a, ack)] /\ data_octets t = [] /\
    holds T_RANAP_RANAP_PDU ack 2 9 0 M_RANAP_ResetAcknowledgeIEs [("id-CN-DomainIndicator", VEnum (if is_ps then 1 else 0))] /\
    unconnected_gives E h ack [].
Proof. exact talk_reset. Qed.
Print Assumptions C88_reset.

(* a whole call: Location Updating Request, Identity Request and Response, Security
   Mode Command and Complete, MM Information, Release Request, Command and Complete *)
Definition the_message (x : outcome wrapped) : list N := match x with Ok w => match w_msg w with Some (b, _) => b | None => [] end | Fault _ => [] end.
Definition ranap_of (b : list N) : list N :=
  match pdu_in T_RUA_RUA_PDU b with
  | Some (_, p, _, o) => match assoc "id-RANAP-Message" (let m := if (p =? 1)%N then M_RUA_ConnectIEs else M_RUA_DirectTransferIEs in shown m (d_ies (decode_msg m o))) with Some (Some (VOcts r)) => r | _ => [] end
  | None => []
  end.
Definition emulator : henv := mkHenv true (fun _ => None) (fun _ => [1; 2; 3; 4]%N) false.
Definition core : env := stack (ex_env [] 0 no_app).
(* the new effects, oldest first *)
Definition does (s : st) (o : op) : st * list eff := let r := fst (exec core o (mkW s [])) in (w_st r, rev (w_tr r)).
Definition down (t : list eff) : list N := hd [] (map snd (data_octets t)).
Definition phone (h : hnb) (ranap : list N) : list heff :=
  match read_cb emulator h (RData rua_ppid (the_message (rua_new_dt false 0 (Some ranap)))) with Ok y => y_eff y | Fault _ => [] end.
Definition up (e : list heff) : list N := ranap_of (hd [] (map snd (sent e))).
Definition hnb0 : hnb := mkHnb 0 0 None 42.
Definition hnb1 : hnb := mkHnb 0 0 (Some (mkChan false 42)) 43.
Definition s0 : st := w_st (reach core []).
Definition opened := match hstep emulator hnb0 (HChannel false) with Ok (_, e) => up e | Fault _ => [] end.
Definition s1 := does s0 (OConnectInd 5 (mk_addr 1) opened).
Definition asked := does (fst s1) (OApi (ATx 0 (Some 1%N) [5; 0x18; 1]%N 0)).
Definition secured := does (fst s1) (OApi (ATxSecModeCmd 1%N (repeat 7%N 16) [] false true)).
Definition informed := does (fst s1) (OApi (ATx 0 (Some 1%N) [5; 0x32]%N 0)).
Definition commanded := does (fst informed) (ODataInd 5 (up (phone hnb1 (down (snd informed))))).
Example C88_ex :
  (* the hypotheses are met *)
  (exists u, live (fst s1) 1%N = Some u /\ u_conn u = 5%N) /\ chan_ok hnb1 /\ h_cs hnb1 = Some (mkChan false 42) /\ sres_ok emulator /\
  mm [5; 0x18; 1]%N 0x18 /\ mm [5; 0x32]%N 0x32 /\ quiet core /\
  (* what happens *)
  match hstep emulator hnb0 (HChannel false) with Ok (h, _) => h = hnb1 | Fault _ => False end /\
  recvs (snd s1) = [(1, lu_octets, Some (mkRaId 901 99 false 0x4223 255), Some 0x4223)]%N /\
  recvs (snd (does (fst asked) (ODataInd 5 (up (phone hnb1 (down (snd asked))))))) =
    [(1, [5; 0x19; 9; 3; 0x31; 0x91; 6; 0; 0x28; 0x47; 0x11; 0xf2], None, None)]%N /\
  events (snd (does (fst secured) (ODataInd 5 (up (phone hnb1 (down (snd secured))))))) = [(Some 1%N, EvSecurityModeComplete)] /\
  data_octets (snd commanded) = [(5, [0; 1; 0; 9; 0; 0; 1; 0; 4; 64; 2; 9; 192])]%N /\
  events (snd (does (fst commanded) (ODataInd 5 (up (phone hnb1 (down (snd commanded))))))) = [(Some 1%N, EvIuRelease)].
Proof.
  split; [eexists; vm_compute; split; reflexivity|]. split; [intros c H; injection H as <-; reflexivity|]. split; [reflexivity|].
  split; [intros r; split; reflexivity|]. split; [do 3 eexists; split; [reflexivity|split; reflexivity]|]. split; [do 3 eexists; split; [reflexivity|split; reflexivity]|].
  split; [intros t; reflexivity|]. split; [vm_compute; reflexivity|]. repeat split; vm_compute; reflexivity.
Qed.
(* an Authentication Request, an IMSI and a paging call *)
Example C88_hypotheses_ex :
  mm ([5; 0x12; 0]%N ++ repeat 7%N 16) 0x12 /\ bytes_ok ([5; 0x12; 0]%N ++ repeat 7%N 16) = true /\ key_ok (repeat 7%N 16) /\ cause_ok (release_cause None) /\
  (let a := APagePs2 [57; 48; 49; 55; 48; 49]%N (Some 7%N) (mkRai (mkLai (mkPlmn 901 70 false) 16931) 255) in
   paging_call a = Some ([57; 48; 49; 55; 48; 49]%N, Some 7%N, true) /\ opt_ok (fun t => (t < 2 ^ 32)%N) (Some 7%N)).
Proof.
  split; [do 3 eexists; split; [reflexivity|split; reflexivity]|]. split; [reflexivity|]. split; [split; reflexivity|].
  split; [eapply (encode_valid T_RANAP_Cause); vm_compute; reflexivity|]. split; reflexivity.
Qed.
