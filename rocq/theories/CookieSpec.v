(** What the user of a cookie jar expects. *)
From stdpp Require Import gmap.
From Verif Require Import Text SettingsModel CookieModel.

(** Cookie [c] is in the jar, stored by origin [o]. *)
Definition stored (j : jar) (o : str) (c : cookie) : Prop := exists b, entries j !! o = Some b /\ c ∈ b.

(** What makes two cookies of one origin the same cookie. *)
Definition key (c : cookie) : str * option str * option str := (c_name c, c_domain c, c_path c).

(** [order] lists the buckets of [j] in some order, as a hash map iteration does. *)
Definition enumerates (order : list (str * list cookie)) (j : jar) : Prop := order ≡ₚ map_to_list (entries j).
(** All cookies with the origin that stored them. *)
Definition contents (order : list (str * list cookie)) : list (str * cookie) :=
  flat_map (fun b => map (pair b.1) b.2) order.

(** Host [h] is domain [d] or one of its subdomains, ignoring ASCII case. *)
Definition domain_matches (h d : str) : Prop :=
  lower h = lower d \/ exists sub, lower h = sub ++ txt "." ++ lower d.
(** RFC 6265 5.1.4 *)
Definition path_matches (request p : str) : Prop :=
  request = p \/ exists rest, request = p ++ rest /\ (last p = Some 47%N \/ head rest = Some 47%N).

Section spec.
  Context (psl_domain : str -> option str) (psl_known : str -> bool).

  (** Same registrable domain; hosts without one are compared literally. *)
  Definition cross_site (u : url) (top : option url) : Prop :=
    exists t, top = Some t /\
      match psl_domain (u_host u), psl_domain (u_host t) with
      | Some a, Some b => a <> b
      | _, _ => u_host u <> u_host t
      end.

  Definition is_none_secure (c : cookie) : Prop := c_same_site c = Some (txt "None") /\ c_secure c = true.

  (** May cookie [c], stored by [o], go with the request? *)
  Record eligible (pol : policy) (u : url) (top : option url) (ctx : context) (now : Z) (oc : str * cookie) : Prop := {
    el_fresh : match c_expires oc.2 with Some e => (now < e)%Z | None => True end;
    el_policy : cross_site u top ->
      match pol with Allow => True | Block => False | SameSiteNoneOnly => is_none_secure oc.2 end;
    el_strict : c_same_site oc.2 = Some (txt "Strict") -> ctx = SameSite;
    el_none : c_same_site oc.2 = Some (txt "None") -> c_secure oc.2 = true;
    el_lax : c_same_site oc.2 <> Some (txt "Strict") -> c_same_site oc.2 <> Some (txt "None") -> ctx <> CrossSite;
    el_host : match c_domain oc.2 with Some d => domain_matches (u_host u) d | None => oc.1 = u_origin u end;
    el_path : match c_path oc.2 with Some p => path_matches (u_path u) p | None => True end;
    el_secure : c_secure oc.2 = true -> u_scheme u = txt "https" }.

  (** The header for a list of cookies. *)
  Definition header_of (cs : list cookie) : option str :=
    match cs with
    | [] => None
    | _ => Some (join (txt "; ") (map (fun c => c_name c ++ txt "=" ++ c_value c) cs))
    end.

  (** Longer paths first, older first among equals; [path_bytes] counts UTF-8 bytes. *)
  Definition path_bytes (c : cookie) : N := match c_path c with Some p => blen p | None => 0%N end.
  Definition goes_before (a b : cookie) : Prop :=
    (path_bytes b < path_bytes a)%N \/ (path_bytes a = path_bytes b /\ (c_created a <= c_created b)%Z).

  (** The jar without some of its cookies. *)
  Definition keep (P : cookie -> bool) (order : list (str * list cookie)) : list (str * list cookie) :=
    map (fun b => (b.1, filter (fun c => P c = true) b.2)) order.

  (** A cookie [u] may set. *)
  Record acceptable (u : url) (c : cookie) : Prop := {
    ac_secure : c_secure c = true -> u_scheme u = txt "https";
    ac_secure_prefix : (exists r, c_name c = txt "__Secure-" ++ r) -> c_secure c = true;
    ac_host_prefix : (exists r, c_name c = txt "__Host-" ++ r) ->
      c_secure c = true /\ c_domain c = None /\ c_path c = Some (txt "/");
    ac_domain : forall d, c_domain c = Some d ->
      domain_matches (u_host u) d /\ ~ (psl_domain d = None /\ psl_known d = true);
    ac_path : c_path c <> None;
    ac_name : c_name c <> [] /\ 59%N ∉ c_name c /\ 61%N ∉ c_name c;
    ac_value : 59%N ∉ c_value c }.

  (** How a server reads a Cookie header: split at semicolons, drop one leading blank of every
      piece but the first, split each at the first equals sign. *)
  Definition drop_blank (s : str) : str := match s with 32%N :: r => r | _ => s end.
  Definition server_view (h : str) : list (option (str * str)) :=
    match split 59 h with
    | [] => []
    | p :: r => split_once 61 p :: map (fun s => split_once 61 (drop_blank s)) r
    end.

  (** The jar after one header: nothing happened, a cookie was deleted, or set. *)
  Definition removed_key (b b' : list cookie) (k : str * option str * option str) : Prop :=
    b' = filter (fun c => key c <> k) b.
  Definition put_cookie (b b' : list cookie) (c : cookie) (now_ms : Z) : Prop :=
    (* a new key goes to the end with the current time, *)
    (key c ∉ map key b /\ c_created c = now_ms /\ b' = b ++ [c]) \/
    (* a known one is replaced in place and keeps its creation time *)
    exists l old r, b = l ++ old :: r /\ key old = key c /\ key c ∉ map key l /\
      c_created c = c_created old /\ b' = l ++ c :: r.

  (** * Set-Cookie headers as servers write them *)
  (** No white space at either end. *)
  Definition tidy (s : str) : Prop :=
    match s with c :: _ => is_space c = false | [] => True end /\
    match last s with Some c => is_space c = false | None => True end.
  Inductive attr :=
  | APath (p : str) | ADomain (d : str) | AMaxAge (z : Z) | AExpires (t : str)
  | ASameSite (s : str) | ASecure | AHttpOnly.
  (** [written t a]: the text [t] between two semicolons stands for attribute [a]. Names and
      SameSite values are written in any letter case, a domain may have a leading dot. *)
  Inductive written : str -> attr -> Prop :=
  | w_path k p : lower k = txt "path" -> head p = Some 47%N -> last p <> Some 34%N -> 59%N ∉ p -> tidy p ->
      written (k ++ txt "=" ++ p) (APath p)
  | w_domain k d : lower k = txt "domain" -> head d <> Some 46%N -> 59%N ∉ d -> tidy d ->
      written (k ++ txt "=" ++ d) (ADomain d)
  | w_domain_dot k d : lower k = txt "domain" -> d <> [] -> head d <> Some 46%N -> 59%N ∉ d -> tidy d ->
      written (k ++ txt "=." ++ d) (ADomain d)
  | w_max_age k z : lower k = txt "max-age" -> (imin <= z <= imax)%Z -> written (k ++ txt "=" ++ show_Z z) (AMaxAge z)
  | w_expires k t : lower k = txt "expires" -> 59%N ∉ t -> tidy t -> written (k ++ txt "=" ++ t) (AExpires t)
  | w_same_site k v s : lower k = txt "samesite" -> s ∈ [txt "Strict"; txt "Lax"; txt "None"] -> lower v = lower s ->
      written (k ++ txt "=" ++ v) (ASameSite s)
  | w_secure k : lower k = txt "secure" -> written k ASecure
  | w_http_only k : lower k = txt "httponly" -> written k AHttpOnly.
  (** The header "n=v; t1; t2; ..." *)
  Definition header_text (n v : str) (ts : list str) : str :=
    n ++ txt "=" ++ v ++ flat_map (fun t => txt "; " ++ t) ts.

  (** The last attribute that says something wins. *)
  Definition last_of {A} (f : attr -> option A) (l : list attr) : option A :=
    foldl (fun acc a => match f a with Some x => Some x | None => acc end) None l.
  Definition get_path a := match a with APath p => Some p | _ => None end.
  Definition get_domain a := match a with ADomain d => Some (lower d) | _ => None end.
  Definition get_max_age a := match a with AMaxAge z => Some z | _ => None end.
  Definition get_expires a := match a with AExpires t => Some t | _ => None end.
  Definition get_same_site a := match a with ASameSite s => Some s | _ => None end.

  (** The directory of a path: everything before the last slash, "/" when that is empty. *)
  Definition directory (path dir : str) : Prop :=
    (exists a b, path = a ++ txt "/" ++ b /\ 47%N ∉ b /\ dir = match a with [] => txt "/" | _ => a end) \/
    (47%N ∉ path /\ dir = txt "/").

  (** The cookie described by a header, apart from its creation and expiry times. *)
  Record describes (u : url) (n v : str) (l : list attr) (c : cookie) : Prop := {
    de_name : c_name c = n;
    de_value : c_value c = v;
    de_path : match last_of get_path l with Some p => c_path c = Some p | None => exists p, directory (u_path u) p /\ c_path c = Some p end;
    de_domain : c_domain c = last_of get_domain l;
    de_secure : c_secure c = true <-> ASecure ∈ l;
    de_http_only : c_http_only c = true <-> AHttpOnly ∈ l;
    de_same_site : c_same_site c = last_of get_same_site l }.
  (** Expiry: Max-Age wins over Expires, without either it is a session cookie. *)
  Definition expiry (http_date : str -> option Z) (now : Z) (l : list attr) : option Z :=
    match last_of get_max_age l with
    | Some z => Some (now + z)%Z
    | None => match last_of get_expires l with Some t => http_date t | None => None end
    end.
  (** Domains [u] may name. *)
  Definition may_name (u : url) (d : str) : Prop :=
    domain_matches (u_host u) d /\ ~ (psl_domain d = None /\ psl_known d = true).
  (** The third-party policy lets [u] set [c]. *)
  Definition policy_accepts (pol : policy) (u : url) (top : option url) (c : cookie) : Prop :=
    cross_site u top -> match pol with Allow => True | Block => False | SameSiteNoneOnly => is_none_secure c end.

  (** The header has a Max-Age attribute with this value. *)
  Definition asks_max_age (h : str) (z : Z) : Prop :=
    exists piece k v, piece ∈ split 59 h /\ split_once 61 (trim piece) = Some (k, v) /\
      lower (trim k) = txt "max-age" /\ parse_isize (trim v) = Some z.
End spec.
