(** Model of brel/utils/edgar.py:22-169.

    Simplifications:
    - the file system and the web are a record [world]: the cached metadata of the company with the
      age of its file, what the server answers, the status of a ping, and [Filing.open];
    - the metadata is its columns of text; [str(isXBRL)] is stored instead of [isXBRL]; a metadata
      file without the five columns is not modelled;
    - [datetime.strptime] is a parameter, messages on the console are left out, and so are
      arguments that are no strings. *)
From Verif Require Import Base PyNum DtsModel.

(** edgar.py:125: [metadata["filings"]["recent"]] *)
Record recent := Recent {
  r_form : list str; r_xbrl : list str; r_date : list str; r_accession : list str; r_doc : list str }.
(** edgar.py:167: the name is printed and has to be there *)
Record metadata := Metadata { m_recent : recent; m_name : option str }.

(** [F] stands for the class [Filing]. The cached file comes with its age in seconds. *)
Record world (F : Type) := World {
  w_cache : option (Z * metadata);
  w_server : option metadata;
  w_ping : str -> N;
  w_open : str -> res F;
  w_strptime : str -> bool }.
Arguments World {F}. Arguments w_cache {F}. Arguments w_server {F}. Arguments w_ping {F}.
Arguments w_open {F}. Arguments w_strptime {F}.

(** [cik.zfill(n)]: a sign stays in front *)
Definition zfill (n : nat) (s : str) : str :=
  let z := repeat (ch "0") (n - length s) in
  match s with
  | c :: t => if N.eqb c (ch "+") || N.eqb c (ch "-") then c :: z ++ t else z ++ s
  | [] => z
  end.

(** [s.replace(pat, new)] *)
Fixpoint replace_from (skip : nat) (pat new s : str) : str :=
  match s with
  | [] => []
  | c :: t =>
      match skip with
      | S k => replace_from k pat new t
      | O => if starts_with pat s then new ++ replace_from (length pat - 1) pat new t
             else c :: replace_from 0 pat new t
      end
  end.
Definition replace_all (pat new s : str) : str := replace_from 0 pat new s.

(** [l[i]] *)
Definition at_ {A} (l : list A) (i : nat) : res A :=
  match nth_error l i with Some x => Ok x | None => Raise IndexError end.

(** edgar.py:127-131 *)
Definition report_fits (r : recent) (type : str) (date : option str) (i : nat) : res bool :=
  do! f <- at_ (r_form r) i ;
  do! x <- at_ (r_xbrl r) i ;
  do! d <- match date with
           | None => Ok true
           | Some d => do! rd <- at_ (r_date r) i ; Ok (str_eqb rd d)
           end ;
  Ok (str_eqb f type && str_eqb x (u "1") && d).

(** edgar.py:133 *)
Fixpoint filter_res {A} (f : A -> res bool) (l : list A) : res (list A) :=
  match l with
  | [] => Ok []
  | x :: l' => do! b <- f x ; do! ys <- filter_res f l' ; Ok (if b then x :: ys else ys)
  end.

(** edgar.py:136: the key of a row *)
Definition date_key (r : recent) (i : nat) : res (nat * Z) :=
  do! d <- at_ (r_date r) i ;
  match py_int (remove_all (u "-") d) with Some k => Ok (i, k) | None => Raise ValueError end.

(** edgar.py:135-137: sorting by the key in reverse keeps the order of equals *)
Definition sort_reverse (l : list (nat * Z)) : list (nat * Z) :=
  stable_sort (fun a b => (snd b <=? snd a)%Z) l.

(** edgar.py:133-144 *)
Definition choose (r : recent) (type : str) (date : option str) : res nat :=
  do! is_ <- filter_res (report_fits r type date) (seq 0 (length (r_form r))) ;
  do! ks <- map_res (date_key r) is_ ;
  match sort_reverse ks with
  | (i, _) :: _ => Ok i
  | [] => Raise ValueError
  end.

(** edgar.py:146-149 *)
Definition filing_uri (r : recent) (cik : str) (i : nat) : res str :=
  do! a <- at_ (r_accession r) i ;
  do! d <- at_ (r_doc r) i ;
  Ok (u "https://www.sec.gov/Archives/edgar/data/" ++ zfill 10 cik ++ u "/" ++
      remove_all (u "-") a ++ u "/" ++ d).

(** edgar.py:151-165 *)
Definition ping_uri {F} (w : world F) (uri : str) : res str :=
  if ends_with (u ".htm") uri then
    let uri' := replace_all (u ".htm") (u "_htm.xml") uri in
    if N.eqb (w_ping w uri') 200 then Ok uri' else Raise ValueError
  else Ok uri.

(** edgar.py:121-169 *)
Definition open_metadata {F} (w : world F) (m : metadata) (cik type : str) (date : option str) : res F :=
  do! i <- choose (m_recent m) type date ;
  do! uri <- filing_uri (m_recent m) cik i ;
  do! uri' <- ping_uri w uri ;
  do! _ <- match m_name m with Some n => Ok n | None => Raise KeyError end ;
  do! _ <- at_ (r_date (m_recent m)) i ;
  w_open w uri'.

(** edgar.py:22-39: a successful download is cached *)
Definition with_cache {F} (w : world F) (c : option (Z * metadata)) : world F :=
  World c (w_server w) (w_ping w) (w_open w) (w_strptime w).
Definition download {F} (w : world F) : res metadata * world F :=
  match w_server w with
  | None => (Raise ValueError, w)
  | Some m => (Ok m, with_cache w (Some (0%Z, m)))
  end.

(** edgar.py:106-123; [timedelta.days] is the integral part of the days, downwards *)
Definition load_metadata {F} (w : world F) : res metadata * world F :=
  match w_cache w with
  | None => download w
  | Some (age, m) => if (1 <? age / 86400)%Z then download w else (Ok m, w)
  end.

(** edgar.py:11 *)
Definition supported : list str := [u "10-K"; u "10-Q"; u "8-K"].

(** edgar.py:51-169 *)
Definition open_edgar {F} (w : world F) (cik type : str) (date : option str) : res F * world F :=
  if match date with Some d => negb (w_strptime w d) | None => false end then (Raise ValueError, w)
  else if Nat.ltb 10 (length cik) then (Raise ValueError, w)
  else if negb (existsb (str_eqb type) supported) then (Raise ValueError, w)
  else
    let (m, w') := load_metadata w in
    match m with
    | Raise e => (Raise e, w')
    | Ok m => (open_metadata w' m cik type date, w')
    end.
