(** The answers of the nodes to pingchecker and manage_remote_commands (LaunchModel): C133. *)
From Coq Require Import Ascii.
From Verif Require Import Base LaunchModel LaunchSpec.

(** * Texts *)
Lemma strip_app p s : strip p (p ++ s)%string = Some s.
Proof.
  induction p as [|c p IH]; [done|]. change ((String c p ++ s)%string) with (String c (p ++ s)%string).
  cbn [strip]. rewrite Ascii.eqb_refl. exact IH.
Qed.
Lemma strip_inv p s r : strip p s = Some r -> s = (p ++ r)%string.
Proof.
  induction p as [|c p IH] in s |- *; cbn; [by intros [= ->]|]. destruct s as [|d s]; [done|].
  destruct (Ascii.eqb c d) eqn:E; [|done]. apply Ascii.eqb_eq in E as ->. intros H%IH. by rewrite H.
Qed.
Lemma span_eq p s : s = ((span p s).1 ++ (span p s).2)%string.
Proof.
  induction s as [|c s IH]; [done|]. cbn [span]. destruct (p c); [|done]. destruct (span p s) as [a b]. cbn in *. by rewrite IH at 1.
Qed.
Lemma span_class p s : str_all p (span p s).1 = true.
Proof.
  induction s as [|c s IH]; [done|]. cbn [span]. destruct (p c) eqn:E; [|done]. destruct (span p s) as [a b]. cbn in *. by rewrite E, IH.
Qed.
Lemma span_app p a c r : str_all p a = true -> p c = false -> span p (a ++ String c r)%string = (a, String c r).
Proof.
  intros Ha Hc. induction a as [|x a IH].
  - change (("" ++ String c r)%string) with (String c r). cbn [span]. by rewrite Hc.
  - cbn in Ha. apply andb_true_iff in Ha as [Hx Ha]. change ((String x a ++ String c r)%string) with (String x (a ++ String c r)%string).
    cbn [span]. by rewrite Hx, (IH Ha).
Qed.
(** The lines read as "done with exit code 0" are exactly the texts STATUS name 0. *)
Lemma status_ok_spec l h : status_ok l = Some h <-> (host_name h /\ l = ("STATUS " ++ h ++ " 0")%string).
Proof.
  unfold status_ok, status_line, host_name. split.
  - destruct (strip "STATUS " l) as [r|] eqn:E1; [|done]. apply strip_inv in E1 as ->.
    pose proof (span_eq host_char r) as Hs. pose proof (span_class host_char r) as Hc.
    destruct (span host_char r) as [a b]. cbn [fst snd] in *.
    destruct (strip " " b) as [d|] eqn:E2; [|done]. apply strip_inv in E2 as ->.
    destruct (bool_decide (a <> ""%string /\ d <> ""%string)) eqn:E3; [|done]. apply bool_decide_eq_true in E3 as [Ha Hd].
    destruct (str_all digit d); [|done]. cbn [andb]. destruct (String.eqb d "0") eqn:E4; [|done].
    apply String.eqb_eq in E4 as ->. intros [= ->]. split; [done|]. by rewrite Hs at 1.
  - intros [[Hne Hc] ->]. rewrite strip_app. change (" 0"%string) with (String " "%char "0").
    rewrite span_app by done. change (strip " " (String " " "0")) with (Some "0"%string).
    cbv iota. rewrite bool_decide_eq_true_2 by done. done.
Qed.

(** The lines of nmap *)
Lemma str_app_assoc (a b c : string) : ((a ++ b) ++ c)%string = (a ++ (b ++ c))%string.
Proof.
  induction a as [|x a IH]; [done|]. change ((String x a ++ b)%string) with (String x (a ++ b)%string).
  change ((String x (a ++ b) ++ c)%string) with (String x ((a ++ b) ++ c)%string). by rewrite IH.
Qed.
Lemma contains_spec x s : contains x s = true <-> exists a b, s = (a ++ x ++ b)%string.
Proof.
  induction s as [|c s IH].
  - cbn [contains]. destruct (strip x "") as [r|] eqn:E.
    + apply strip_inv in E. split; [|done]. intros _. exists ""%string, r. exact E.
    + split; [done|]. intros (a & b & H). destruct a as [|ca a]; [|done].
      change (("" ++ x ++ b)%string) with ((x ++ b)%string) in H. rewrite H, strip_app in E. done.
  - cbn [contains]. destruct (strip x (String c s)) as [r|] eqn:E.
    + apply strip_inv in E. split; [|done]. intros _. exists ""%string, r. exact E.
    + rewrite IH. split.
      * intros (a & b & ->). exists (String c a), b. done.
      * intros (a & b & H). destruct a as [|ca a].
        -- change (("" ++ x ++ b)%string) with ((x ++ b)%string) in H. rewrite H, strip_app in E. done.
        -- injection H as -> H. exists a, b. done.
Qed.
Lemma span_stop p s d r : (span p s).2 = String d r -> p d = false.
Proof.
  induction s as [|c s IH]; [done|]. cbn [span]. destruct (p c) eqn:E.
  - destruct (span p s) as [a b]. cbn in *. exact IH.
  - cbn. intros [= -> ->]. done.
Qed.
Lemma span_app' p a r : str_all p a = true -> (forall d r', r = String d r' -> p d = false) -> span p (a ++ r)%string = (a, r).
Proof.
  intros Ha Hr. destruct r as [|c r].
  - clear Hr. assert ((a ++ "")%string = a) as ->.
    { clear Ha. induction a as [|x a IH]; [done|]. change ((String x a ++ "")%string) with (String x (a ++ "")%string). by rewrite IH. }
    induction a as [|x a IH]; [done|]. cbn in Ha. apply andb_true_iff in Ha as [Hx Ha]. cbn [span]. by rewrite Hx, (IH Ha).
  - apply span_app; [done|]. by eapply Hr.
Qed.
Lemma number_spec s n r : number s = Some (n, r) <-> numeric n /\ s = (n ++ r)%string /\ (forall d r', r = String d r' -> digit d = false).
Proof.
  unfold number, numeric. split.
  - pose proof (span_eq digit s) as Hs. pose proof (span_class digit s) as Hc. pose proof (span_stop digit s) as Hst.
    destruct (span digit s) as [a b]. cbn [fst snd] in *. case_bool_decide as Ha; [done|]. intros [= <- <-].
    split; [done|]. split; [exact Hs|]. intros d r' ->. by eapply Hst.
  - intros ([Hne Hc] & -> & Hr). rewrite span_app' by done. by rewrite bool_decide_eq_false_2.
Qed.
Lemma dot_number s n r : andthen (strip "." s) number = Some (n, r) <->
  numeric n /\ s = ("." ++ n ++ r)%string /\ (forall d r', r = String d r' -> digit d = false).
Proof.
  split.
  - destruct (strip "." s) as [t|] eqn:E; [|done]. cbn [andthen]. apply strip_inv in E as ->. intros H.
    apply number_spec in H as (H1 & -> & H2). done.
  - intros (H1 & -> & H2). change (("." ++ n ++ r)%string) with (("." ++ (n ++ r))%string). rewrite strip_app. cbn [andthen]. by apply number_spec.
Qed.
Lemma nmap_line_spec l ip : nmap_line l = Some ip <-> open_port l ip.
Proof.
  unfold nmap_line, open_port. split.
  - destruct (strip "Host:" l) as [t|] eqn:E; [|done]. apply strip_inv in E as ->. cbn [andthen].
    destruct t as [|c t]; [done|]. cbn [strip1]. destruct (space c) eqn:Ec; [|done].
    destruct (number t) as [[n1 t1]|] eqn:E1; [|done]. apply number_spec in E1 as (H1 & -> & _).
    destruct (andthen (strip "." t1) number) as [[n2 t2]|] eqn:E2; [|done]. apply dot_number in E2 as (H2 & -> & _).
    destruct (andthen (strip "." t2) number) as [[n3 t3]|] eqn:E3; [|done]. apply dot_number in E3 as (H3 & -> & _).
    destruct (andthen (strip "." t3) number) as [[n4 t4]|] eqn:E4; [|done]. apply dot_number in E4 as (H4 & -> & Hd).
    destruct (contains "/open/" t4) eqn:Eo; [|done]. apply contains_spec in Eo as (r1 & r2 & ->). intros [= <-].
    exists c, n1, n2, n3, n4, r1, r2. split; [done|]. split; [done|]. split; [done|]. split; [done|]. split; [done|].
    split; [done|]. split; [done|]. rewrite !str_app_assoc. reflexivity.
  - intros (c & n1 & n2 & n3 & n4 & r1 & r2 & Hc & H1 & H2 & H3 & H4 & -> & Hd & ->).
    rewrite strip_app. cbn [andthen strip1]. rewrite Hc. rewrite !str_app_assoc.
    rewrite (proj2 (number_spec _ n1 _)) by (split; [exact H1|split; [reflexivity|intros d r' [= <- _]; done]]).
    rewrite (proj2 (dot_number _ n2 _)) by (split; [exact H2|split; [reflexivity|intros d r' [= <- _]; done]]).
    rewrite (proj2 (dot_number _ n3 _)) by (split; [exact H3|split; [reflexivity|intros d r' [= <- _]; done]]).
    rewrite (proj2 (dot_number _ n4 _)) by (split; [exact H4|split; [reflexivity|exact Hd]]).
    rewrite (proj2 (contains_spec "/open/" _)) by (exists r1, r2; reflexivity). reflexivity.
Qed.

(** * The list of hosts left *)
Lemma keys_of_elem hosts h : h ∈ keys_of hosts <-> h ∈ hosts.
Proof.
  induction hosts as [|x r IH]; [done|]. cbn [keys_of]. rewrite !elem_of_cons, elem_of_list_filter, IH.
  destruct (decide (h = x)); tauto.
Qed.
Lemma keys_of_NoDup hosts : NoDup (keys_of hosts).
Proof.
  induction hosts as [|x r IH]; cbn [keys_of]; [constructor|]. constructor; [|by apply NoDup_filter].
  rewrite elem_of_list_filter. tauto.
Qed.
Lemma read_lines_spec answer out bad : (forall l, l ∈ out -> is_ok (answer l) = true) ->
  exists l, read_lines answer false out bad = Ok l /\ (NoDup bad -> NoDup l) /\
    forall h, h ∈ l <-> h ∈ bad /\ forall x, x ∈ out -> answer x <> Ok (Some h).
Proof.
  induction out as [|x out IH] in bad |- *; intros Hok.
  - exists bad. split; [done|]. split; [done|]. intros h. split; [|tauto]. intros H. split; [done|]. by intros x Hx%elem_of_nil.
  - assert (forall l, l ∈ out -> is_ok (answer l) = true) as Hok' by (intros l Hl; apply Hok; apply elem_of_cons; by right).
    specialize (Hok x) as Hx. cbn [read_lines]. destruct (answer x) as [[h|]|e] eqn:E.
    + destruct (IH (if bool_decide (h ∈ bad) then base.filter (fun y => y <> h) bad else bad) Hok') as (l & El & Hnd & Hl).
      exists l. split; [done|]. split.
      { intros Hb. apply Hnd. destruct (bool_decide _); [by apply NoDup_filter|done]. }
      intros k. rewrite Hl. case_bool_decide as Hin.
      * rewrite elem_of_list_filter. split.
        -- intros [[Hk Hb] Hr]. split; [done|]. intros y [->|Hy]%elem_of_cons; [rewrite E; congruence|by apply Hr].
        -- intros [Hb Hr]. split; [split; [|done]|].
           ++ intros ->. apply (Hr x); [apply elem_of_cons; by left|done].
           ++ intros y Hy. apply Hr. apply elem_of_cons. by right.
      * split.
        -- intros [Hb Hr]. split; [done|]. intros y [->|Hy]%elem_of_cons; [rewrite E; congruence|by apply Hr].
        -- intros [Hb Hr]. split; [done|]. intros y Hy. apply Hr. apply elem_of_cons. by right.
    + destruct (IH bad Hok') as (l & El & Hnd & Hl). exists l. split; [done|]. split; [done|]. intros k. rewrite Hl. split.
      * intros [Hb Hr]. split; [done|]. intros y [->|Hy]%elem_of_cons; [rewrite E; congruence|by apply Hr].
      * intros [Hb Hr]. split; [done|]. intros y Hy. apply Hr. apply elem_of_cons. by right.
    + exfalso. assert (is_ok (@Err (option string) e) = true) as Hf by (apply Hx; apply elem_of_cons; by left). done.
Qed.

(** * C133 *)
(** With taktuk, and for the remote commands, the hosts returned are exactly those that did not answer, each once. *)
Theorem C133_taktuk : forall hosts out, Forall host_name hosts ->
  exists bad, pingchecker MTaktuk hosts out = Ok bad /\ remote hosts out = Ok bad /\ NoDup bad /\
    forall h, h ∈ bad <-> h ∈ hosts /\ ~ answered out h.
Proof.
  intros hosts out Hn. unfold pingchecker, remote.
  destruct (read_lines_spec (fun l => Ok (status_ok l)) out (keys_of hosts)) as (l & -> & Hnd & Hl); [done|].
  exists l. split; [done|]. split; [done|]. split; [apply Hnd, keys_of_NoDup|].
  intros h. rewrite Hl, keys_of_elem. split; intros [Hh Hr]; (split; [done|]).
  - intros Ha. rewrite Forall_forall in Hn. apply (Hr _ Ha). f_equal. apply status_ok_spec. split; [by apply Hn|done].
  - intros x Hx Heq. injection Heq as Heq. apply status_ok_spec in Heq as [_ ->]. done.
Qed.
Theorem C133_example : pingchecker MTaktuk ["node1"; "node2"; "node3"]%string
  ["STATUS node1 0"; "node2: no route to host"; "STATUS node2 255"; "STATUS node3 0"]%string = Ok ["node2"]%string.
Proof. vm_compute. reflexivity. Qed.

(** With nmap: the hosts whose address is not seen with an open port, when no two hosts have the same address and only
    addresses asked for are reported. *)
Lemma by_address_inj resolve hosts h ip : (forall a b, a ∈ hosts -> b ∈ hosts -> resolve a = resolve b -> a = b) ->
  h ∈ hosts -> resolve h = ip -> by_address resolve hosts ip = Some h.
Proof.
  intros Hinj Hh <-. unfold by_address.
  assert (forall x, x ∈ base.filter (fun k => resolve k = resolve h) hosts -> x = h) as Hall.
  { intros x [Hx Hin]%elem_of_list_filter. by apply Hinj. }
  assert (h ∈ base.filter (fun k => resolve k = resolve h) hosts) as Hin by (by apply elem_of_list_filter).
  destruct (last (base.filter (fun k => resolve k = resolve h) hosts)) as [y|] eqn:E.
  - f_equal. apply Hall. by apply last_Some_elem_of.
  - apply last_None in E. rewrite E in Hin. by apply elem_of_nil in Hin.
Qed.
Theorem C133_nmap : forall resolve hosts out,
  (forall a b, a ∈ hosts -> b ∈ hosts -> resolve a = resolve b -> a = b) ->
  (forall l ip, l ∈ out -> open_port l ip -> exists h, h ∈ hosts /\ resolve h = ip) ->
  exists bad, pingchecker (MNmap resolve) hosts out = Ok bad /\ NoDup bad /\
    forall h, h ∈ bad <-> h ∈ hosts /\ forall l, l ∈ out -> ~ open_port l (resolve h).
Proof.
  intros resolve hosts out Hinj Hknown0.
  assert (forall l ip, l ∈ out -> nmap_line l = Some ip -> exists h, h ∈ hosts /\ resolve h = ip) as Hknown.
  { intros l ip Hl H. apply (Hknown0 l ip Hl). by apply nmap_line_spec. }
  clear Hknown0. unfold pingchecker.
  match goal with |- context [read_lines ?a _ _ _] => set (answer := a) end.
  assert (forall l ip, l ∈ out -> nmap_line l = Some ip -> exists h, h ∈ hosts /\ resolve h = ip /\ answer l = Ok (Some h)) as Hans.
  { intros l ip Hl Hip. destruct (Hknown l ip Hl Hip) as (h & Hh & Hr). exists h. split; [done|]. split; [done|].
    unfold answer. by rewrite Hip, (by_address_inj resolve hosts h ip). }
  destruct (read_lines_spec answer out (keys_of hosts)) as (l & -> & Hnd & Hl).
  { intros l Hin. destruct (nmap_line l) as [ip|] eqn:E.
    - destruct (Hans l ip Hin E) as (h & _ & _ & ->). done.
    - unfold answer. by rewrite E. }
  exists l. split; [done|]. split; [apply Hnd, keys_of_NoDup|]. intros h. rewrite Hl, keys_of_elem.
  split; intros [Hh Hr]; (split; [done|]).
  - intros x Hx E. apply nmap_line_spec in E. destruct (Hans x _ Hx E) as (k & Hk & Hkr & Ha). apply (Hr x Hx). rewrite Ha. do 2 f_equal. by apply Hinj.
  - intros x Hx E. destruct (nmap_line x) as [ip|] eqn:En.
    + destruct (Hans x ip Hx En) as (k & Hk & <- & Ha). rewrite Ha in E. injection E as ->. apply (Hr x Hx). by apply nmap_line_spec.
    + unfold answer in E. rewrite En in E. done.
Qed.
Theorem C133_nmap_example : exists resolve hosts out, 
  pingchecker (MNmap resolve) hosts out = Ok ["node2"]%string /\ hosts = ["node1"; "node2"]%string.
Proof.
  exists (fun h => if String.eqb h "node1" then "10.0.0.1" else "10.0.0.2")%string, ["node1"; "node2"]%string,
    ["Host: 10.0.0.1 ()	Ports: 22/open/tcp//ssh///"; "Host: 10.0.0.2 ()	Ports: 22/closed/tcp//ssh///"]%string.
  split; [vm_compute; reflexivity|done].
Qed.
(** Two hosts at one address: the first one is suspected though it answers. *)
Theorem C133_same_address_refuted : exists resolve hosts out h, h ∈ hosts /\ nmap_line "Host: 10.0.0.1 () 22/open/" = Some (resolve h) /\
  out = ["Host: 10.0.0.1 () 22/open/"]%string /\ pingchecker (MNmap resolve) hosts out = Ok [h].
Proof.
  exists (fun _ => "10.0.0.1"%string), ["node1"; "node2"]%string, ["Host: 10.0.0.1 () 22/open/"]%string, "node1"%string.
  split; [by_dec|]. split; [vm_compute; reflexivity|]. split; [done|]. vm_compute. reflexivity.
Qed.

(** The other methods never suspect a host, whatever the output: they answer that all hosts are fine, or raise. *)
Lemma read_add answer out bad : (exists e, read_lines answer true out bad = Err e) \/ read_lines answer true out bad = Ok [].
Proof.
  induction out as [|l out IH]; [by right|]. cbn [read_lines]. destruct (answer l) as [[h|]|e]; [left; eauto|done|left; eauto].
Qed.
Theorem C133_never_suspects_refuted : forall m hosts out, m = MSentinelle \/ m = MGeneric \/ m = MFping \/ m = MNone ->
  (exists e, pingchecker m hosts out = Err e) \/ pingchecker m hosts out = Ok [].
Proof.
  intros m hosts out [->|[->|[->| ->]]]; try apply read_add. left. by exists EName.
Qed.
(** fping -u lists the hosts that do not answer: they are taken to answer; a host listed as bad by the other two
    programs raises. *)
Theorem C133_methods_refuted :
  pingchecker MFping ["node1"; "node2"]%string ["node2"]%string = Ok [] /\
  pingchecker MSentinelle ["node1"; "node2"]%string ["node2 : BAD "]%string = Err EName /\
  pingchecker MGeneric ["node1"; "node2"]%string ["node2"]%string = Err EName.
Proof. split; [|split]; vm_compute; reflexivity. Qed.
Print Assumptions C133_taktuk.
Print Assumptions C133_example.
Print Assumptions C133_nmap.
Print Assumptions C133_nmap_example.
Print Assumptions C133_same_address_refuted.
Print Assumptions C133_never_suspects_refuted.
Print Assumptions C133_methods_refuted.
