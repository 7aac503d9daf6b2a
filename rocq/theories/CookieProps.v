(** The cookie jar: property theorems C12-C18 and C53-C57. Everywhere the public suffix list
    ([psl_domain], [psl_known]) and the date parser [http_date] are arbitrary functions. *)
From stdpp Require Import gmap.
From Verif Require Import Text SettingsModel CookieModel CookieSpec CookieProofs.

(** * Examples *)
Definition demo_domain (h : str) : option str :=
  if bool_decide (h ∈ [txt "example.com"; txt "a.example.com"; txt "b.example.com"]) then Some (txt "example.com")
  else if bool_decide (h ∈ [txt "ads.net"]) then Some (txt "ads.net")
  else if bool_decide (h ∈ [txt "a.internal"; txt "b.internal"]) then Some h
  else None.
Definition demo_known (h : str) : bool := bool_decide (h ∈ [txt "com"; txt "net"]).
Definition demo_date (t : str) : option Z := if bool_decide (t = txt "then") then Some 50%Z else None.
Definition site (host path : str) : url := mk_url (txt "https") host path (txt "https://" ++ host).
Definition site_a := site (txt "a.example.com") (txt "/shop/cart").
Definition site_b := site (txt "b.example.com") (txt "/").
Definition plain_a := mk_url (txt "http") (txt "a.example.com") (txt "/shop/cart") (txt "http://a.example.com").
Definition ads := site (txt "ads.net") (txt "/x").
Definition resp (u : url) (h : str) (now : Z) : op := OStore u [(Some h, (now, now * 1000))%Z] None.
Definition demo_run := run demo_domain demo_known demo_date.
Definition demo_store := store_response_cookies demo_domain demo_known demo_date.
Definition demo_get := get_request_cookies demo_domain.
Definition demo_ops : list op :=
  [resp site_a (txt "sid=1; Secure; HttpOnly; Path=/") 10;
   resp site_a (txt "pref=x; SameSite=Strict") 11;
   resp site_b (txt "wide=y; Domain=example.com; Max-Age=100; Path=/") 12;
   resp site_a (txt "sid=2; Secure; Path=/") 13;
   resp ads (txt "track=1; SameSite=None; Secure") 14;
   OPurge 15].
Definition demo_jar : jar := match demo_run (new_jar Allow) demo_ops with Ok j => j | _ => new_jar Allow end.
Definition demo_order := map_to_list (entries demo_jar).
Example demo_runs : demo_run (new_jar Allow) demo_ops = Ok demo_jar /\ enumerates demo_order demo_jar.
Proof. split; [by vm_compute|unfold enumerates; reflexivity]. Qed.

(** * C12, C13 *)
(** C12. Whatever order the hash map is walked in, the stored cookies split into those sent and
    the rest: everything sent is eligible, nothing eligible is left out, and the header is the
    rendering of exactly those sent. *)
Theorem C12_exactly_eligible_sent : forall psl_domain j order u top ctx now,
  enumerates order j ->
  exists sent rest,
    sent ++ rest ≡ₚ contents order /\
    (forall oc, oc ∈ contents order <-> stored j oc.1 oc.2) /\
    Forall (eligible psl_domain (jar_policy j) u top ctx now) sent /\
    Forall (fun oc => ~ eligible psl_domain (jar_policy j) u top ctx now oc) rest /\
    get_request_cookies psl_domain (jar_policy j) order u top ctx now = header_of (map snd sent).
Proof.
  intros pd j order u top ctx now He. destruct (request_spec pd (jar_policy j) order u top ctx now) as (s & r & H1 & H2 & H3 & H4 & _).
  exists s, r. split; [done|]. split; [intros oc; by apply contents_stored|]. done.
Qed.
Print Assumptions C12_exactly_eligible_sent.

Example C12_example :
  demo_get Allow demo_order site_a None SameSite 20 = Some (txt "pref=x; sid=2; wide=y") /\
  demo_get Allow demo_order site_a None CrossSiteNavigation 20 = Some (txt "sid=2; wide=y") /\
  demo_get Allow demo_order plain_a None SameSite 20 = Some (txt "wide=y") /\
  demo_get Allow demo_order site_a None SameSite 112 = Some (txt "pref=x; sid=2") /\
  demo_get Allow demo_order site_b None CrossSite 20 = None.
Proof. by vm_compute. Qed.

(** C13. The cookies sent come longest path first, oldest first among equally long paths. *)
Theorem C13_header_order : forall psl_domain pol order u top ctx now,
  exists sent rest,
    get_request_cookies psl_domain pol order u top ctx now = header_of (map snd sent) /\
    sent ++ rest ≡ₚ contents order /\
    Forall (eligible psl_domain pol u top ctx now) sent /\
    Forall (fun oc => ~ eligible psl_domain pol u top ctx now oc) rest /\
    StronglySorted goes_before (map snd sent).
Proof. exact request_spec. Qed.
Print Assumptions C13_header_order.

(** "wide" (created 12) has the path "/" and was set before nothing else of that length but
    "sid" (created 10, kept although replaced at 13); "pref" has the longer path "/shop". *)
Example C13_example :
  map (fun c => (c_name c, c_path c, c_created c)) (default [] (entries demo_jar !! u_origin site_a)) =
    [(txt "sid", Some (txt "/"), 10000%Z); (txt "pref", Some (txt "/shop"), 11000%Z)].
Proof. by vm_compute. Qed.

(** The order of two cookies with equally long paths and equal creation times is not fixed: it
    follows the hash map. *)
Definition tie_ops : list op :=
  [resp site_a (txt "p=1; Domain=example.com; Path=/") 10; resp site_b (txt "q=2; Domain=example.com; Path=/") 10].
Definition tie_jar := match demo_run (new_jar Allow) tie_ops with Ok j => j | _ => new_jar Allow end.
Theorem C13_ties_refuted : exists j order order' u,
  demo_run (new_jar Allow) tie_ops = Ok j /\ enumerates order j /\ enumerates order' j /\
  demo_get Allow order u None SameSite 20 <> demo_get Allow order' u None SameSite 20.
Proof.
  exists tie_jar, (map_to_list (entries tie_jar)), (rev (map_to_list (entries tie_jar))), site_a.
  split; [by vm_compute|]. split; [unfold enumerates; reflexivity|]. split; [unfold enumerates; symmetry; apply Permutation_rev|]. by vm_compute.
Qed.
Print Assumptions C13_ties_refuted.

(** * C14 *)
(** After any history no origin holds two cookies with the same name, domain and path. *)
Theorem C14_one_per_key : forall psl_domain psl_known http_date p ops j,
  run psl_domain psl_known http_date (new_jar p) ops = Ok j ->
  forall o b, entries j !! o = Some b -> NoDup (map key b).
Proof. intros pd pk hd p ops j H. exact (run_unique pd pk hd p ops j H). Qed.
Print Assumptions C14_one_per_key.

(** One header changes one origin only, where it does nothing, deletes one cookie, or puts one:
    at the end and dated now if it is new, in place and with its old creation time if not. *)
Theorem C14_header_effect : forall psl_domain psl_known http_date j u h now now_ms top j',
  store_response_cookies psl_domain psl_known http_date j u [(h, (now, now_ms))] top = Ok j' ->
  (forall o, o <> u_origin u -> entries j' !! o = entries j !! o) /\
  let b := default [] (entries j !! u_origin u) in
  let b' := default [] (entries j' !! u_origin u) in
  b' = b \/ (exists k, removed_key b b' k) \/
  (exists c, acceptable psl_domain psl_known u c /\ put_cookie b b' c now_ms).
Proof. exact one_header. Qed.
Print Assumptions C14_header_effect.

Example C14_example :
  exists j', demo_store demo_jar site_a [(Some (txt "sid=3; Secure; Path=/"), (30, 30000)%Z)] None = Ok j' /\
    map (fun c => (c_name c, c_value c, c_created c)) (default [] (entries j' !! u_origin site_a)) =
      [(txt "sid", txt "3", 10000%Z); (txt "pref", txt "x", 11000%Z)].
Proof. eexists. split; vm_compute; reflexivity. Qed.

(** Across origins the key is not unique: two hosts of one site can each hold the same domain
    cookie, and both are sent. *)
Theorem C14_across_origins_refuted : exists j order,
  demo_run (new_jar Allow)
    [resp site_a (txt "t=1; Domain=example.com; Path=/") 10; resp site_b (txt "t=2; Domain=example.com; Path=/") 11] = Ok j /\
  enumerates order j /\
  demo_get Allow order site_a None SameSite 20 = Some (txt "t=1; t=2").
Proof.
  eexists _, _. split; [vm_compute; reflexivity|]. split; [unfold enumerates; reflexivity|]. by vm_compute.
Qed.
Print Assumptions C14_across_origins_refuted.

(** * C15 *)
(** A response from a URL that is not https adds no Secure cookie, *)
Theorem C15_not_accepted_from_plaintext : forall psl_domain psl_known http_date j u hs top j' o c,
  u_scheme u <> txt "https" ->
  store_response_cookies psl_domain psl_known http_date j u hs top = Ok j' ->
  stored j' o c -> c_secure c = true -> stored j o c.
Proof.
  intros pd pk hd j u hs top j' o c Hu Hs Hc Hsec.
  destruct (store_elem _ _ _ _ _ _ _ _ _ _ Hs Hc) as [?|(_ & Ha & _)]; [done|]. by destruct Hu; apply (ac_secure _ _ _ _ Ha).
Qed.
Print Assumptions C15_not_accepted_from_plaintext.

(** a request to such a URL carries what it would carry if the jar had no Secure cookies, *)
Theorem C15_not_sent_to_plaintext : forall psl_domain pol order u top ctx now,
  u_scheme u <> txt "https" ->
  get_request_cookies psl_domain pol order u top ctx now =
  get_request_cookies psl_domain pol (keep (fun c => negb (c_secure c)) order) u top ctx now.
Proof.
  intros pd pol order u top ctx now Hu. symmetry. apply get_keep. intros oc _ Hc _. unfold selected, secure_lets.
  rewrite Hc. assert (eqs (u_scheme u) https = false) as -> by by apply eqs_false. by rewrite andb_false_r.
Qed.
Print Assumptions C15_not_sent_to_plaintext.

(** and, as the origin includes the scheme, such a response neither removes nor replaces one. *)
Theorem C15_not_touched_by_plaintext : forall psl_domain psl_known http_date p ops j u hs top j' o c,
  (forall v hs' tp, OStore v hs' tp ∈ ops -> u_origin v = u_origin u -> u_scheme v = u_scheme u) ->
  u_scheme u <> txt "https" ->
  run psl_domain psl_known http_date (new_jar p) ops = Ok j ->
  store_response_cookies psl_domain psl_known http_date j u hs top = Ok j' ->
  c_secure c = true -> (stored j' o c <-> stored j o c).
Proof. exact insecure_store. Qed.
Print Assumptions C15_not_touched_by_plaintext.

Example C15_example :
  u_scheme plain_a <> txt "https" /\
  (forall v hs tp, OStore v hs tp ∈ demo_ops -> u_origin v = u_origin plain_a -> u_scheme v = u_scheme plain_a) /\
  exists j', demo_store demo_jar plain_a [(Some (txt "sid=evil; Secure; Path=/"), (30, 30000)%Z);
                                          (Some (txt "sid=evil; Path=/"), (30, 30000)%Z)] None = Ok j' /\
    map c_value (default [] (entries j' !! u_origin plain_a)) = [txt "evil"] /\
    entries j' !! u_origin site_a = entries demo_jar !! u_origin site_a.
Proof.
  split; [by vm_compute|]. split.
  - intros v hs tp H. unfold demo_ops, resp in H. rewrite !elem_of_cons in H.
    destruct H as [[= -> _ _]|[[= -> _ _]|[[= -> _ _]|[[= -> _ _]|[[= -> _ _]|[[=]|H]]]]]]; try (intros E; by vm_compute in E).
    by apply elem_of_nil in H.
  - eexists. split; [vm_compute; reflexivity|]. by vm_compute.
Qed.

(** * C16 *)
Theorem C16_prefixes : forall psl_domain psl_known http_date p ops j o c,
  run psl_domain psl_known http_date (new_jar p) ops = Ok j -> stored j o c ->
  exists u hs top, OStore u hs top ∈ ops /\ u_origin u = o /\
    ((exists r, c_name c = txt "__Secure-" ++ r) -> c_secure c = true /\ u_scheme u = txt "https") /\
    ((exists r, c_name c = txt "__Host-" ++ r) ->
       c_secure c = true /\ u_scheme u = txt "https" /\ c_domain c = None /\ c_path c = Some (txt "/")).
Proof.
  intros pd pk hd p ops j o c Hr Hs. destruct (provenance _ _ _ _ _ _ _ _ Hr Hs) as (u & hs & top & H1 & H2 & Ha & _).
  exists u, hs, top. split; [done|]. split; [done|]. split.
  - intros H. pose proof (ac_secure_prefix _ _ _ _ Ha H) as E. split; [done|]. by apply (ac_secure _ _ _ _ Ha).
  - intros H. destruct (ac_host_prefix _ _ _ _ Ha H) as (E1 & E2 & E3). split; [done|]. split; [by apply (ac_secure _ _ _ _ Ha)|done].
Qed.
Print Assumptions C16_prefixes.

Example C16_example :
  exists j, demo_run (new_jar Allow)
    [resp site_a (txt "__Host-a=1; Secure; Path=/") 1; resp site_a (txt "__Host-b=1; Secure; Path=/x") 1;
     resp site_a (txt "__Host-c=1; Secure; Path=/; Domain=example.com") 1; resp site_a (txt "__Secure-d=1") 1;
     resp site_a (txt "__Secure-e=1; Secure") 1; resp plain_a (txt "__Secure-f=1; Secure") 1] = Ok j /\
  map c_name (default [] (entries j !! u_origin site_a)) = [txt "__Host-a"; txt "__Secure-e"] /\
  entries j !! u_origin plain_a = Some [].
Proof. eexists. split; vm_compute; [reflexivity|done]. Qed.

(** * C17 *)
Theorem C17_block : forall psl_domain psl_known http_date j u hs top order ctx now,
  cross_site psl_domain u top -> jar_policy j = Block ->
  store_response_cookies psl_domain psl_known http_date j u hs top = Ok j /\
  get_request_cookies psl_domain (jar_policy j) order u top ctx now = None.
Proof.
  intros pd pk hd j u hs top order ctx now Hc Hp. apply third_party_spec in Hc.
  unfold store_response_cookies, get_request_cookies. rewrite Hc, Hp. done.
Qed.
Print Assumptions C17_block.

Theorem C17_none_only_stores : forall psl_domain psl_known http_date j u hs top j' o c,
  cross_site psl_domain u top -> jar_policy j = SameSiteNoneOnly ->
  store_response_cookies psl_domain psl_known http_date j u hs top = Ok j' ->
  stored j' o c -> stored j o c \/ (c_same_site c = Some (txt "None") /\ c_secure c = true).
Proof.
  intros pd pk hd j u hs top j' o c Hc Hp Hs Hst. destruct (store_elem _ _ _ _ _ _ _ _ _ _ Hs Hst) as [?|(_ & _ & H)]; [by left|].
  right. by apply H.
Qed.
Print Assumptions C17_none_only_stores.

Theorem C17_none_only_sends : forall psl_domain order u top ctx now,
  cross_site psl_domain u top ->
  get_request_cookies psl_domain SameSiteNoneOnly order u top ctx now =
  get_request_cookies psl_domain SameSiteNoneOnly
    (keep (fun c => bool_decide (c_same_site c = Some (txt "None")) && c_secure c) order) u top ctx now.
Proof.
  intros pd order u top ctx now Hc%third_party_spec. symmetry. apply get_keep. intros oc _ H _. unfold selected, policy_lets, none_and_secure.
  rewrite Hc. cbn [andb]. rewrite bool_decide_eq_true_2, H by done. by rewrite andb_false_r.
Qed.
Print Assumptions C17_none_only_sends.

(** Strict cookies stay home on every cross-site request; on a cross-site subrequest only
    cookies that are SameSite=None and Secure are sent. *)
Theorem C17_strict : forall psl_domain pol order u top ctx now,
  ctx <> SameSite ->
  get_request_cookies psl_domain pol order u top ctx now =
  get_request_cookies psl_domain pol (keep (fun c => negb (bool_decide (c_same_site c = Some (txt "Strict")))) order) u top ctx now.
Proof.
  intros pd pol order u top ctx now Hx. symmetry. apply get_keep. intros oc _ H _. unfold selected, same_site_lets.
  apply negb_false_iff in H. rewrite H, (bool_decide_eq_false_2 (ctx = SameSite)) by done. by rewrite andb_false_r.
Qed.
Print Assumptions C17_strict.

Theorem C17_lax : forall psl_domain pol order u top now,
  get_request_cookies psl_domain pol order u top CrossSite now =
  get_request_cookies psl_domain pol
    (keep (fun c => bool_decide (c_same_site c = Some (txt "None")) && c_secure c) order) u top CrossSite now.
Proof.
  intros pd pol order u top now. symmetry. apply get_keep. intros oc _ H _.
  assert (same_site_lets CrossSite oc.2 = false) as E.
  { unfold same_site_lets. destruct (bool_decide (c_same_site oc.2 = Some (txt "Strict"))); [done|].
    by destruct (bool_decide (c_same_site oc.2 = Some (txt "None"))). }
  unfold selected. rewrite E. by rewrite andb_false_r.
Qed.
Print Assumptions C17_lax.

Example C17_example :
  cross_site demo_domain ads (Some site_a) /\
  demo_get Allow demo_order ads (Some site_a) CrossSite 20 = Some (txt "track=1") /\
  demo_get Block demo_order ads (Some site_a) CrossSite 20 = None /\
  demo_get SameSiteNoneOnly demo_order ads (Some site_a) CrossSite 20 = Some (txt "track=1") /\
  demo_get SameSiteNoneOnly demo_order site_a (Some ads) CrossSiteNavigation 20 = None /\
  demo_get Allow demo_order site_a (Some ads) CrossSiteNavigation 20 = Some (txt "sid=2; wide=y").
Proof. split; [exists site_a; by vm_compute|]. by vm_compute. Qed.

(** Under the SameSite=None-only policy a cross-site response can still delete cookies that it
    could not have set. *)
Theorem C17_deletion_refuted : exists j j' u top hs o c,
  demo_run (new_jar SameSiteNoneOnly) [resp ads (txt "own=1") 1] = Ok j /\
  cross_site demo_domain u top /\ demo_store j u hs top = Ok j' /\
  stored j o c /\ ~ stored j' o c.
Proof.
  eexists _, _, ads, (Some site_a), [(Some (txt "own=; Max-Age=0"), (2, 2000)%Z)], (u_origin ads), _.
  split; [vm_compute; reflexivity|]. split; [exists site_a; by vm_compute|]. split; [vm_compute; reflexivity|]. split.
  - eexists. split; [vm_compute; reflexivity|]. by left.
  - intros (b & Hb & Hc). vm_compute in Hb. injection Hb as <-. by apply elem_of_nil in Hc.
Qed.
Print Assumptions C17_deletion_refuted.

(** * C18 *)
(** Purging changes no header at that time or later, in whatever order the hash maps before and
    after are walked, *)
Theorem C18_purge_unobservable : forall psl_domain j now,
  (forall order, enumerates order j -> exists order', enumerates order' (purge_expired j now) /\
     forall now' pol u top ctx, (now <= now')%Z ->
       get_request_cookies psl_domain pol order' u top ctx now' = get_request_cookies psl_domain pol order u top ctx now') /\
  (forall order', enumerates order' (purge_expired j now) -> exists order, enumerates order j /\
     forall now' pol u top ctx, (now <= now')%Z ->
       get_request_cookies psl_domain pol order' u top ctx now' = get_request_cookies psl_domain pol order u top ctx now').
Proof. exact (fun pd => purge_observations pd (fun _ => true) (fun _ => None)). Qed.
Print Assumptions C18_purge_unobservable.

(** and removes exactly the expired cookies. *)
Theorem C18_purge_removes_expired : forall j now o c,
  stored (purge_expired j now) o c <->
  stored j o c /\ match c_expires c with Some e => (now < e)%Z | None => True end.
Proof.
  intros j now o c. rewrite purge_stored. unfold unexpired. destruct (c_expires c); [by rewrite Z.ltb_lt|split; intros [? _]; by split].
Qed.
Print Assumptions C18_purge_removes_expired.

Example C18_purge_example :
  map c_name (default [] (entries (purge_expired demo_jar 111) !! u_origin site_b)) = [txt "wide"] /\
  entries (purge_expired demo_jar 112) !! u_origin site_b = None /\
  entries (purge_expired demo_jar 112) !! u_origin site_a = entries demo_jar !! u_origin site_a.
Proof. by vm_compute. Qed.

(** Repeating the header that set a cookie with "; Max-Age=z" appended, z <= 0, deletes exactly
    that cookie. *)
Theorem C18_max_age_deletes : forall psl_domain psl_known http_date pol u h clock c z j j' top clock',
  store_response_cookies psl_domain psl_known http_date (new_jar pol) u [(Some h, clock)] None = Ok j ->
  stored j (u_origin u) c -> (imin <= z <= 0)%Z -> (cross_site psl_domain u top -> jar_policy j' <> Block) ->
  exists j'', store_response_cookies psl_domain psl_known http_date j' u
                [(Some (h ++ txt "; Max-Age=" ++ show_Z z), clock')] top = Ok j'' /\
    forall o x, stored j'' o x <-> stored j' o x /\ ~ (o = u_origin u /\ key x = key c).
Proof.
  intros pd pk hd pol u h clock c z j j' top clock' H1 H2 H3 H4. eapply delete_header; try done.
  intros Ht. apply H4. by apply third_party_spec.
Qed.
Print Assumptions C18_max_age_deletes.

(** A header that gives a date in the past, and no Max-Age, leaves from then on what deleting
    the cookie would leave. *)
Theorem C18_past_date_deletes : forall psl_domain psl_known http_date p ops j u n v ts l c now now_ms top t e,
  run psl_domain psl_known http_date (new_jar p) ops = Ok j ->
  n <> [] -> tidy n -> 59%N ∉ n -> 61%N ∉ n -> tidy v -> 59%N ∉ v ->
  Forall2 written ts l -> (forall d, ADomain d ∈ l -> may_name psl_domain psl_known u (lower d)) ->
  describes u n v l c -> acceptable psl_domain psl_known u c -> policy_accepts psl_domain (jar_policy j) u top c ->
  last_of get_max_age l = None -> last_of get_expires l = Some t -> http_date t = Some e -> (e <= now)%Z ->
  exists j', store_response_cookies psl_domain psl_known http_date j u [(Some (header_text n v ts), (now, now_ms))] top = Ok j' /\
    forall later o x, (now <= later)%Z ->
      stored (purge_expired j' later) o x <->
      stored (purge_expired j later) o x /\ ~ (o = u_origin u /\ key x = key c).
Proof. exact past_date_deletes. Qed.
Print Assumptions C18_past_date_deletes.

Example C18_deletion_example :
  exists j', demo_store demo_jar site_a [(Some (txt "sid=; Path=/; Expires=then"), (60, 60000)%Z)] None = Ok j' /\
    map c_name (default [] (entries (purge_expired j' 60) !! u_origin site_a)) = [txt "pref"] /\
  exists j'', demo_store demo_jar site_a [(Some (txt "sid=2; Secure; Path=/" ++ txt "; Max-Age=" ++ show_Z (-3)), (60, 60000)%Z)] None = Ok j'' /\
    map c_name (default [] (entries j'' !! u_origin site_a)) = [txt "pref"].
Proof. eexists. split; [vm_compute; reflexivity|]. split; [by vm_compute|]. eexists. split; vm_compute; reflexivity. Qed.

(** * C53: the server can read the header back *)
Theorem C53_header_unambiguous : forall psl_domain psl_known http_date p ops j order u top ctx now,
  run psl_domain psl_known http_date (new_jar p) ops = Ok j -> enumerates order j ->
  exists sent, get_request_cookies psl_domain p order u top ctx now = header_of sent /\
    Forall (fun c => exists o, stored j o c) sent /\
    forall h, get_request_cookies psl_domain p order u top ctx now = Some h ->
      server_view h = map (fun c => Some (c_name c, c_value c)) sent.
Proof. exact unambiguous. Qed.
Print Assumptions C53_header_unambiguous.

Example C53_example :
  server_view (txt "pref=x; sid=2; wide=y") =
    [Some (txt "pref", txt "x"); Some (txt "sid", txt "2"); Some (txt "wide", txt "y")].
Proof. by vm_compute. Qed.

(** * C54: removing *)
Theorem C54_remove_cookie : forall j u n o c,
  stored (remove_cookie j u n) o c <-> stored j o c /\ ~ (o = u_origin u /\ c_name c = n).
Proof. exact (remove_stored (fun _ => None) (fun _ => true) (fun _ => None)). Qed.
Print Assumptions C54_remove_cookie.

(** After forgetting a URL's cookies, its requests carry only domain cookies of other origins. *)
Theorem C54_forget_url_partial : forall psl_domain j u order top ctx now,
  enumerates order (remove_cookies_for_url j u) ->
  exists sent, get_request_cookies psl_domain (jar_policy j) order u top ctx now = header_of (map snd sent) /\
    Forall (fun oc => stored j oc.1 oc.2 /\ oc.1 <> u_origin u /\ c_domain oc.2 <> None) sent.
Proof. exact (fun pd => forget_url pd (fun _ => true) (fun _ => None)). Qed.
Print Assumptions C54_forget_url_partial.

(** The full claim, that none is left, is false. *)
Theorem C54_forget_url_refuted : exists order,
  enumerates order (remove_cookies_for_url demo_jar site_a) /\
  demo_get Allow order site_a None SameSite 20 = Some (txt "wide=y").
Proof. eexists. split; [unfold enumerates; reflexivity|]. by vm_compute. Qed.
Print Assumptions C54_forget_url_refuted.

(** * C55: cookies stay within their site *)
(** [coherent]: a name below one that has a registrable domain has the same one. *)
Theorem C55_stays_on_site_partial : forall psl_domain psl_known http_date p ops j order u ctx now,
  coherent psl_domain ->
  run psl_domain psl_known http_date (new_jar p) ops = Ok j -> enumerates order j ->
  exists sent rest, get_request_cookies psl_domain p order u None ctx now = header_of (map snd sent) /\
    sent ++ rest ≡ₚ contents order /\
    Forall (fun oc => exists v hs tp, OStore v hs tp ∈ ops /\ u_origin v = oc.1 /\
      (c_domain oc.2 = None -> u_origin v = u_origin u) /\
      (forall d, c_domain oc.2 = Some d -> is_Some (psl_domain d) -> ~ cross_site psl_domain u (Some v))) sent.
Proof. exact stays_on_site. Qed.
Print Assumptions C55_stays_on_site_partial.

(** A list without wildcard rules: the last two labels. *)
Example C55_example :
  demo_get Allow demo_order site_a None SameSite 20 = Some (txt "pref=x; sid=2; wide=y") /\
  ~ cross_site demo_domain site_a (Some site_b) /\
  coherent (fun h => if bool_decide (txt "example.com" `suffix_of` lower h) then Some (txt "example.com") else None).
Proof.
  split; [by vm_compute|]. split; [intros (t & E & H); apply (inj Some) in E; subst t; vm_compute in H; by apply H|].
  intros h d r Hm. case_bool_decide as Hd; [|done]. intros [= <-]. rewrite bool_decide_eq_true_2; [done|].
  destruct Hm as [->|[sub ->]]; [done|]. destruct Hd as [k ->]. exists (sub ++ txt "." ++ k). by rewrite !app_assoc.
Qed.

(** Below an unlisted suffix, a host can set a cookie for its sibling sites. *)
Theorem C55_stays_on_site_refuted : exists j order,
  demo_run (new_jar Allow) [resp (site (txt "a.internal") (txt "/")) (txt "x=1; Domain=internal") 1] = Ok j /\ enumerates order j /\
  cross_site demo_domain (site (txt "b.internal") (txt "/")) (Some (site (txt "a.internal") (txt "/"))) /\
  demo_get Allow order (site (txt "b.internal") (txt "/")) None SameSite 2 = Some (txt "x=1").
Proof.
  eexists _, _. split; [vm_compute; reflexivity|]. split; [unfold enumerates; reflexivity|].
  split; [eexists; by vm_compute|by vm_compute].
Qed.
Print Assumptions C55_stays_on_site_refuted.

(** * C56: a response cannot crash the jar *)
Theorem C56_store_total_partial : forall psl_domain psl_known http_date j u hs top,
  (forall h now now_ms, (h, (now, now_ms)) ∈ hs ->
     (imin <= now)%Z /\ forall t z, h = Some t -> asks_max_age t z -> (now + z <= imax)%Z) ->
  exists j', store_response_cookies psl_domain psl_known http_date j u hs top = Ok j'.
Proof.
  intros pd pk hd j u hs top H. apply store_total. apply Forall_forall. intros [h [now ms]] Hh.
  destruct (H _ _ _ Hh) as [H1 H2]. split; [exact H1|exact H2].
Qed.
Print Assumptions C56_store_total_partial.

Example C56_example : asks_max_age (txt "a=b; max-age = 5 ") 5 /\
  exists j', demo_store (new_jar Allow) site_a [(Some (txt "a=b; max-age = 5 "), (7, 7000)%Z); (None, (7, 7000)%Z)] None = Ok j' /\
    map c_expires (default [] (entries j' !! u_origin site_a)) = [Some 12%Z].
Proof.
  split; [|eexists; split; vm_compute; reflexivity]. exists (txt " max-age = 5 "), (txt "max-age "), (txt " 5").
  split; [right; left|by vm_compute].
Qed.

(** Max-Age is added to the clock without a check: "Max-Age=9223372036854775807" overflows.
    (In builds without overflow checks the cookie is instead expired at once.) *)
Theorem C56_overflow_refuted :
  demo_store (new_jar Allow) site_a [(Some (txt "a=b; Max-Age=9223372036854775807"), (1700000000, 1700000000000)%Z)] None = Panic.
Proof. by vm_compute. Qed.
Print Assumptions C56_overflow_refuted.

(** * C57: headers mean what they say *)
(** A well-formed header that may be accepted sets exactly the cookie it describes, expiring
    when it says, in its origin's bucket and nowhere else. *)
Theorem C57_header_understood : forall psl_domain psl_known http_date j u n v ts l c now now_ms top,
  n <> [] -> tidy n -> 59%N ∉ n -> 61%N ∉ n -> tidy v -> 59%N ∉ v ->
  Forall2 written ts l -> (forall d, ADomain d ∈ l -> may_name psl_domain psl_known u (lower d)) ->
  describes u n v l c -> acceptable psl_domain psl_known u c -> policy_accepts psl_domain (jar_policy j) u top c ->
  (forall z, last_of get_max_age l = Some z -> (0 < z)%Z /\ (imin <= now + z <= imax)%Z) ->
  exists b' c',
    store_response_cookies psl_domain psl_known http_date j u [(Some (header_text n v ts), (now, now_ms))] top =
      Ok (mk_jar (<[u_origin u := b']> (entries j)) (jar_policy j)) /\
    describes u n v l c' /\ c_expires c' = expiry http_date now l /\
    put_cookie (default [] (entries j !! u_origin u)) b' c' now_ms.
Proof. exact header_sets. Qed.
Print Assumptions C57_header_understood.

(** With a Max-Age that is not positive it deletes that cookie. *)
Theorem C57_deletion_understood : forall psl_domain psl_known http_date j u n v ts l c now now_ms top z,
  n <> [] -> tidy n -> 59%N ∉ n -> 61%N ∉ n -> tidy v -> 59%N ∉ v ->
  Forall2 written ts l -> (forall d, ADomain d ∈ l -> may_name psl_domain psl_known u (lower d)) ->
  describes u n v l c -> acceptable psl_domain psl_known u c -> policy_accepts psl_domain (jar_policy j) u top c ->
  last_of get_max_age l = Some z -> (z <= 0)%Z ->
  exists j', store_response_cookies psl_domain psl_known http_date j u [(Some (header_text n v ts), (now, now_ms))] top = Ok j' /\
    forall o x, stored j' o x <-> stored j o x /\ ~ (o = u_origin u /\ key x = key c).
Proof. exact header_deletes. Qed.
Print Assumptions C57_deletion_understood.

(** "n=v; PATH=/a; domain=.Example.com; Secure; samesite=LAX; Max-Age=60" from site_a. *)
Definition ex_ts := [txt "PATH=/a"; txt "domain=.Example.com"; txt "Secure"; txt "samesite=LAX"; txt "Max-Age=60"].
Definition ex_attrs := [APath (txt "/a"); ADomain (txt "Example.com"); ASecure; ASameSite (txt "Lax"); AMaxAge 60].
Definition ex_cookie := mk_cookie (txt "n") (txt "v") (Some (txt "/a")) (Some (txt "example.com")) true (Some 70%Z) (Some (txt "Lax")) false 10000.
Example C57_example :
  Forall2 written ex_ts ex_attrs /\
  (forall d, ADomain d ∈ ex_attrs -> may_name demo_domain demo_known site_a (lower d)) /\
  describes site_a (txt "n") (txt "v") ex_attrs ex_cookie /\
  acceptable demo_domain demo_known site_a ex_cookie /\
  policy_accepts demo_domain Allow site_a None ex_cookie /\
  exists j', demo_store (new_jar Allow) site_a [(Some (header_text (txt "n") (txt "v") ex_ts), (10, 10000)%Z)] None = Ok j' /\
    entries j' !! u_origin site_a = Some [ex_cookie].
Proof.
  assert (may_name demo_domain demo_known site_a (txt "example.com")) as Hmay.
  { split; [right; exists (txt "a"); by vm_compute|]. intros [H _]. by vm_compute in H. }
  split.
  { constructor; [apply (w_path (txt "PATH") (txt "/a")); try by vm_compute; vm_compute; set_solver|].
    constructor; [apply (w_domain_dot (txt "domain") (txt "Example.com")); try by vm_compute; vm_compute; set_solver|].
    constructor; [apply w_secure; by vm_compute|].
    constructor; [apply (w_same_site (txt "samesite") (txt "LAX") (txt "Lax")); [by vm_compute|set_solver|by vm_compute]|].
    constructor; [apply (w_max_age (txt "Max-Age") 60); [by vm_compute|unfold imin, imax; lia]|constructor]. }
  split.
  { intros d H. unfold ex_attrs in H. rewrite !elem_of_cons in H. destruct H as [?|[[= ->]|[?|[?|[?|H]]]]]; try done. by apply elem_of_nil in H. }
  split.
  { constructor; try (by vm_compute).
    - split; [intros _; unfold ex_attrs; set_solver|done].
    - split; [done|]. unfold ex_attrs. rewrite !elem_of_cons. intros [?|[?|[?|[?|[?|H]]]]]; try done. by apply elem_of_nil in H. }
  split.
  { constructor; try done.
    - intros [r H]. by vm_compute in H.
    - by intros d [= <-].
    - simpl. split; [done|]. split; vm_compute; set_solver.
    - simpl. vm_compute. set_solver. }
  split; [by intros (t & ? & _)|]. eexists. split; vm_compute; reflexivity.
Qed.
