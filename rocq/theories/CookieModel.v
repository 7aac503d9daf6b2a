(** Model of crates/gosub_engine/src/engine/cookies/cookie_jar.rs (the jar) and of [Cookie] in
    cookies.rs *)
From stdpp Require Import gmap.
From Verif Require Import Text SettingsModel Sorting.

(** cookies.rs:143-194 [Cookie] *)
Record cookie := mk_cookie {
  c_name : str; c_value : str; c_path : option str; c_domain : option str; c_secure : bool;
  c_expires : option Z; c_same_site : option str; c_http_only : bool; c_created : Z }.

(** The parts of a [url::Url] the jar looks at. [u_host] is [host_str().unwrap_or_default()] and
    [u_origin] the serialised origin; URL parsing itself is not modelled. *)
Record url := mk_url { u_scheme : str; u_host : str; u_path : str; u_origin : str }.

(** cookie_jar.rs:123-133 [ThirdPartyCookiePolicy], 149-160 [SameSiteContext] *)
Inductive policy := Allow | Block | SameSiteNoneOnly.
Inductive context := SameSite | CrossSiteNavigation | CrossSite.
Global Instance policy_eq_dec : EqDecision policy.
Proof. solve_decision. Defined.
Global Instance context_eq_dec : EqDecision context.
Proof. solve_decision. Defined.

(** cookie_jar.rs:253-263 [DefaultCookieJar] *)
Record jar := mk_jar { entries : gmap str (list cookie); jar_policy : policy }.
(** cookie_jar.rs:271-284 *)
Definition new_jar (p : policy) : jar := mk_jar ∅ p.

(** * Text helpers (Rust standard library) *)
Definition lower_char (c : N) : N := if ((65 <=? c) && (c <=? 90))%N then (c + 32)%N else c.
Definition lower (s : str) : str := map lower_char s.
Definition eqs (a b : str) : bool := bool_decide (a = b).
Fixpoint starts_with (s p : str) {struct p} : bool :=
  match p, s with
  | [], _ => true
  | c :: p', d :: s' => (c =? d)%N && starts_with s' p'
  | _ :: _, [] => false
  end.
Definition ends_with (s p : str) : bool := starts_with (rev s) (rev p).
Fixpoint trim_start_char (c : N) (s : str) : str :=
  match s with d :: r => if (d =? c)%N then trim_start_char c r else s | [] => [] end.
Definition trim_matches (c : N) (s : str) : str := rev (trim_start_char c (rev (trim_start_char c s))).
(** [rsplit_once] *)
Definition rsplit_once (c : N) (s : str) : option (str * str) :=
  match split_once c (rev s) with Some (a, b) => Some (rev b, rev a) | None => None end.
(** [str::len]: bytes of the UTF-8 form *)
Definition char_len (c : N) : N :=
  if (c <? 128)%N then 1 else if (c <? 2048)%N then 2 else if (c <? 65536)%N then 3 else 4.
Definition blen (s : str) : N := foldr (fun c n => (char_len c + n)%N) 0%N s.

Definition semi : N := 59.
Definition eq_sign : N := 61.
Definition dot : N := 46.
Definition slash : N := 47.
Definition quote : N := 34.

Definition https : str := txt "https".

Section jar.
  (** The public suffix list ([psl] crate): registrable domain, and whether the suffix of a name
      is a listed one. [http_date] is cookie_jar.rs:73-99 [parse_http_date] (chrono). *)
  Context (psl_domain : str -> option str) (psl_known : str -> bool) (http_date : str -> option Z).

  (** cookie_jar.rs:37-61 [is_valid_cookie_domain] *)
  Definition is_valid_cookie_domain (request_host domain : str) : bool :=
    let req := lower request_host in
    let dom := lower domain in
    if negb (eqs req dom) && negb (ends_with req (dot :: dom)) then false
    else if bool_decide (psl_domain domain = None) && psl_known domain then false
    else true.

  (** cookie_jar.rs:106-115 [same_site] *)
  Definition same_site (a b : str) : bool :=
    match psl_domain a, psl_domain b with
    | Some x, Some y => eqs x y
    | _, _ => eqs a b
    end.

  (** cookie_jar.rs:292-296 and 476-480 *)
  Definition is_third_party (u : url) (top : option url) : bool :=
    match top with Some tl => negb (same_site (u_host u) (u_host tl)) | None => false end.

  (** cookie_jar.rs:304-307 *)
  Definition default_path (u : url) : str :=
    match rsplit_once slash (u_path u) with
    | Some (a, _) => match a with [] => [slash] | _ => a end
    | None => [slash]
    end.

  (** The loop variables of cookie_jar.rs:328-400 *)
  Record parsing := mk_parsing {
    pc : cookie; p_max_age : option Z; p_expires : option str; p_rejected : bool }.

  Definition with_cookie (st : parsing) (f : cookie -> cookie) : parsing :=
    mk_parsing (f (pc st)) (p_max_age st) (p_expires st) (p_rejected st).
  Definition set_value v c := mk_cookie (c_name c) v (c_path c) (c_domain c) (c_secure c) (c_expires c) (c_same_site c) (c_http_only c) (c_created c).
  Definition set_path p c := mk_cookie (c_name c) (c_value c) p (c_domain c) (c_secure c) (c_expires c) (c_same_site c) (c_http_only c) (c_created c).
  Definition set_domain d c := mk_cookie (c_name c) (c_value c) (c_path c) d (c_secure c) (c_expires c) (c_same_site c) (c_http_only c) (c_created c).
  Definition set_secure c := mk_cookie (c_name c) (c_value c) (c_path c) (c_domain c) true (c_expires c) (c_same_site c) (c_http_only c) (c_created c).
  Definition set_expires e c := mk_cookie (c_name c) (c_value c) (c_path c) (c_domain c) (c_secure c) e (c_same_site c) (c_http_only c) (c_created c).
  Definition set_same_site s c := mk_cookie (c_name c) (c_value c) (c_path c) (c_domain c) (c_secure c) (c_expires c) s (c_http_only c) (c_created c).
  Definition set_http_only c := mk_cookie (c_name c) (c_value c) (c_path c) (c_domain c) (c_secure c) (c_expires c) (c_same_site c) true (c_created c).
  Definition set_created t c := mk_cookie (c_name c) (c_value c) (c_path c) (c_domain c) (c_secure c) (c_expires c) (c_same_site c) (c_http_only c) t.

  (** cookie_jar.rs:374-385: the stored form of a SameSite value *)
  Definition canon_same_site (val : str) : str :=
    if eqs (lower val) (txt "lax") then txt "Lax"
    else if eqs (lower val) (txt "strict") then txt "Strict"
    else if eqs (lower val) (txt "none") then txt "None"
    else val.

  (** One attribute, cookie_jar.rs:344-399; [part] is already trimmed *)
  Definition attribute (u : url) (st : parsing) (part : str) : parsing :=
    match split_once eq_sign part with
    | Some (k, v) =>
        let key := lower (trim k) in
        if eqs key (txt "path") then
          let p := trim_matches quote (trim v) in
          with_cookie st (set_path (Some (if starts_with p [slash] then p else trim v)))
        else if eqs key (txt "domain") then
          let d := lower (trim_start_char dot (trim v)) in
          if is_valid_cookie_domain (u_host u) d then with_cookie st (set_domain (Some d))
          else mk_parsing (pc st) (p_max_age st) (p_expires st) true
        else if eqs key (txt "expires") then mk_parsing (pc st) (p_max_age st) (Some v) (p_rejected st)
        else if eqs key (txt "max-age") then mk_parsing (pc st) (parse_isize (trim v)) (p_expires st) (p_rejected st)
        else if eqs key (txt "samesite") then with_cookie st (set_same_site (Some (canon_same_site (trim v))))
        else if eqs key (txt "secure") then with_cookie st set_secure
        else if eqs key (txt "httponly") then with_cookie st set_http_only
        else st
    | None =>
        if eqs (lower part) (txt "secure") then with_cookie st set_secure
        else if eqs (lower part) (txt "httponly") then with_cookie st set_http_only
        else st
    end.

  (** cookie_jar.rs:314-404: a header up to the defaulted path; [None] is [continue] *)
  Definition parse_set_cookie (u : url) (h : str) : option parsing :=
    match split_once eq_sign h with
    | None => None
    | Some (name, rest) =>
        let name := trim name in
        if bool_decide (name = []) || bool_decide (semi ∈ name) then None
        else
          match map trim (split semi rest) with
          | [] => None
          | value :: attrs =>
              let st := foldl (attribute u)
                          (mk_parsing (mk_cookie name value None None false None None false 0) None None false) attrs in
              Some (match c_path (pc st) with
                    | None => with_cookie st (set_path (Some (default_path u)))
                    | Some _ => st
                    end)
          end
    end.

  Definition same_key (a b : cookie) : bool :=
    eqs (c_name a) (c_name b) && bool_decide (c_domain a = c_domain b) && bool_decide (c_path a = c_path b).

  (** cookie_jar.rs:406-430: the cookie is dropped *)
  Definition refused (u : url) (st : parsing) : bool :=
    let c := pc st in
    p_rejected st
    || c_secure c && negb (eqs (u_scheme u) https)
    || starts_with (c_name c) (txt "__Secure-") && negb (c_secure c)
    || starts_with (c_name c) (txt "__Host-") &&
       (negb (c_secure c) || bool_decide (c_domain c <> None) || negb (bool_decide (c_path c = Some [slash]))).

  (** i64 addition; overflow panics (the arithmetic is checked in debug builds) *)
  Definition add_i64 (a b : Z) : res Z := if in_isize (a + b) then Ok (a + b)%Z else Panic.

  (** cookie_jar.rs:456-468: insert or replace; the creation time of a replaced cookie is kept *)
  Fixpoint upsert (c : cookie) (now_ms : Z) (bucket : list cookie) : list cookie :=
    match bucket with
    | [] => [set_created now_ms c]
    | x :: r => if same_key x c then set_created (c_created x) c :: r else x :: upsert c now_ms r
    end.

  Definition none_and_secure (c : cookie) : bool :=
    bool_decide (c_same_site c = Some (txt "None")) && c_secure c.

  (** One Set-Cookie header, cookie_jar.rs:311-469. [h] is [None] when the bytes are not UTF-8;
      [now] and [now_ms] are the clock readings made while handling it. *)
  Definition store_one (pol : policy) (third : bool) (u : url) (bucket : list cookie)
      (h : option str * (Z * Z)) : res (list cookie) :=
    let '(hs, (now, now_ms)) := h in
    match hs with
    | None => Ok bucket
    | Some hs =>
        match parse_set_cookie u hs with
        | None => Ok bucket
        | Some st =>
            if refused u st then Ok bucket
            else
              let c := pc st in
              let finish (e : option Z) : res (list cookie) :=
                let c := set_expires e c in
                if third && bool_decide (pol = SameSiteNoneOnly) && negb (none_and_secure c) then Ok bucket
                else Ok (upsert c now_ms bucket) in
              match p_max_age st with
              | Some ma =>
                  if (ma <=? 0)%Z then Ok (filter (fun x => same_key x c = false) bucket)
                  else let* e := add_i64 now ma in finish (Some e)
              | None => finish (match p_expires st with Some s => http_date s | None => None end)
              end
        end
    end.

  Fixpoint store_all (pol : policy) (third : bool) (u : url) (bucket : list cookie)
      (hs : list (option str * (Z * Z))) : res (list cookie) :=
    match hs with
    | [] => Ok bucket
    | h :: r => let* b := store_one pol third u bucket h in store_all pol third u b r
    end.

  (** cookie_jar.rs:290-472 [store_response_cookies] *)
  Definition store_response_cookies (j : jar) (u : url) (hs : list (option str * (Z * Z))) (top : option url) : res jar :=
    let third := is_third_party u top in
    if third && bool_decide (jar_policy j = Block) then Ok j
    else
      let* b := store_all (jar_policy j) third u (default [] (entries j !! u_origin u)) hs in
      Ok (mk_jar (<[u_origin u := b]> (entries j)) (jar_policy j)).

  (** * Requests *)
  (** cookie_jar.rs:513-563, the filters *)
  Definition unexpired (now : Z) (c : cookie) : bool :=
    match c_expires c with None => true | Some e => (now <? e)%Z end.
  Definition policy_lets (pol : policy) (third : bool) (c : cookie) : bool :=
    if third && bool_decide (pol = SameSiteNoneOnly) then none_and_secure c else true.
  Definition same_site_lets (ctx : context) (c : cookie) : bool :=
    if bool_decide (c_same_site c = Some (txt "Strict")) then bool_decide (ctx = SameSite)
    else if bool_decide (c_same_site c = Some (txt "None")) then c_secure c
    else bool_decide (ctx = SameSite) || bool_decide (ctx = CrossSiteNavigation).
  Definition host_lets (u : url) (origin : str) (c : cookie) : bool :=
    match c_domain c with
    | Some d => eqs (lower (u_host u)) (lower d) || ends_with (lower (u_host u)) (dot :: lower d)
    | None => eqs origin (u_origin u)
    end.
  Definition path_lets (u : url) (c : cookie) : bool :=
    match c_path c with
    | Some p => eqs (u_path u) p
                || starts_with (u_path u) p && (ends_with p [slash] || starts_with (drop (length p) (u_path u)) [slash])
    | None => true
    end.
  Definition secure_lets (u : url) (c : cookie) : bool := negb (c_secure c) || eqs (u_scheme u) https.

  Definition selected (pol : policy) (third : bool) (ctx : context) (u : url) (now : Z) (oc : str * cookie) : bool :=
    unexpired now oc.2 && policy_lets pol third oc.2 && same_site_lets ctx oc.2 && host_lets u oc.1 oc.2
    && path_lets u oc.2 && secure_lets u oc.2.

  (** cookie_jar.rs:567-571: longer path first, then older *)
  Definition path_len (c : cookie) : N := match c_path c with Some p => blen p | None => 0%N end.
  Definition before (a b : cookie) : bool :=
    (path_len b <? path_len a)%N || ((path_len a =? path_len b)%N && (c_created a <=? c_created b)%Z).

  Definition pair_text (c : cookie) : str := c_name c ++ [eq_sign] ++ c_value c.

  (** cookie_jar.rs:506-571: the cookies to send, in order. [order] is the iteration order of the
      hash map, any enumeration of its entries. *)
  Definition matching (pol : policy) (order : list (str * list cookie)) (u : url) (top : option url) (ctx : context) (now : Z)
      : list cookie :=
    stable_sort before
      (map snd (filter (fun oc => selected pol (is_third_party u top) ctx u now oc = true)
                  (flat_map (fun b => map (pair b.1) b.2) order))).
  (** cookie_jar.rs:474-576 [get_request_cookies] *)
  Definition get_request_cookies (pol : policy) (order : list (str * list cookie)) (u : url) (top : option url) (ctx : context) (now : Z)
      : option str :=
    if is_third_party u top && bool_decide (pol = Block) then None
    else match join (txt "; ") (map pair_text (matching pol order u top ctx now)) with
         | [] => None
         | h => Some h
         end.

  (** cookie_jar.rs:578-580 [clear], 598-603 [remove_cookie], 605-608 [remove_cookies_for_url],
      610-616 [purge_expired] *)
  Definition clear (j : jar) : jar := mk_jar ∅ (jar_policy j).
  Definition remove_cookie (j : jar) (u : url) (name : str) : jar :=
    match entries j !! u_origin u with
    | Some b => mk_jar (<[u_origin u := filter (fun c => c_name c <> name) b]> (entries j)) (jar_policy j)
    | None => j
    end.
  Definition remove_cookies_for_url (j : jar) (u : url) : jar :=
    mk_jar (delete (u_origin u) (entries j)) (jar_policy j).
  Definition purge_bucket (now : Z) (b : list cookie) : option (list cookie) :=
    match filter (fun c => unexpired now c = true) b with [] => None | b' => Some b' end.
  Definition purge_expired (j : jar) (now : Z) : jar :=
    mk_jar (omap (purge_bucket now) (entries j)) (jar_policy j).

  (** * Histories *)
  Inductive op :=
  | OStore (u : url) (hs : list (option str * (Z * Z))) (top : option url)
  | ORemove (u : url) (name : str)
  | ORemoveUrl (u : url)
  | OPurge (now : Z)
  | OClear.
  Definition step (j : jar) (o : op) : res jar :=
    match o with
    | OStore u hs top => store_response_cookies j u hs top
    | ORemove u n => Ok (remove_cookie j u n)
    | ORemoveUrl u => Ok (remove_cookies_for_url j u)
    | OPurge now => Ok (purge_expired j now)
    | OClear => Ok (clear j)
    end.
  Fixpoint run (j : jar) (ops : list op) : res jar :=
    match ops with
    | [] => Ok j
    | o :: r => let* j' := step j o in run j' r
    end.
End jar.
