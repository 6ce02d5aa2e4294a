(** Specification of date transformations, independent of the model: the calendar, how a date is
    written in a text, the month names of the languages, the Japanese eras. *)
From Verif Require Import Base NumSpec.
Local Open Scope Z_scope.

(** ** The Gregorian calendar *)

Definition leap (y : Z) : Prop := (Z.divide 4 y /\ ~ Z.divide 100 y) \/ Z.divide 400 y.
Definition month_lengths : list Z := [31; 28; 31; 30; 31; 30; 31; 31; 30; 31; 30; 31].
(** Number of days of month [m] (1 to 12) of year [y]. *)
Definition month_has (y m n : Z) : Prop :=
  exists k, nth_error month_lengths (Z.to_nat (m - 1)) = Some k /\
    ((m = 2 /\ leap y /\ n = 29) \/ (~ (m = 2 /\ leap y) /\ n = k)).
(** The day exists (years 1 to 9999, the range of Python's dates). *)
Definition real_day (y m d : Z) : Prop :=
  1 <= y <= 9999 /\ 1 <= m <= 12 /\ 1 <= d /\ exists n, month_has y m n /\ d <= n.

(** ** Digits and ISO 8601 *)

Definition two (n : Z) : str := [Z.to_N (48 + n / 10); Z.to_N (48 + n mod 10)].
Definition four (n : Z) : str := two (n / 100) ++ two (n mod 100).

(** Decimal digits of the scripts used by the date formats: ASCII, full width, Devanagari. *)
Definition digit_blocks : list N := [48; 65296; 2406]%N.
Definition digit_value (c : N) : option Z :=
  match find (fun z => (z <=? c) && (c <=? z + 9))%N digit_blocks with
  | Some z => Some (Z.of_N (c - z))
  | None => None
  end.
Definition is_num_char (c : N) : bool := match digit_value c with Some _ => true | None => false end.
Definition num_val (s : str) : Z :=
  fold_left (fun acc c => acc * 10 + match digit_value c with Some d => d | None => 0 end) s 0.

(** A written number with a given count of digits. *)
Definition num (lens : list nat) (s : str) : Prop :=
  forallb is_num_char s = true /\ In (length s) lens.

(** The year meant by a written year: one or two digits mean 20xx. *)
Definition year_meant (s : str) : Z := if Nat.eqb (length s) 4 then num_val s else 2000 + num_val s.

(** ** Dates in texts *)

Inductive field := FDay | FMonth | FYear.

(** [laid_out gap ps t]: the text [t] consists of the pieces [ps] in this order; what stands
    between them and after them satisfies [gap]. *)
Inductive laid_out (gap : str -> Prop) : list str -> str -> Prop :=
| lo_end t : gap t -> laid_out gap [] t
| lo_piece p g ps t : gap g -> laid_out gap ps t -> laid_out gap (p :: ps) (p ++ g ++ t).

Definition no_ascii_digit (s : str) : Prop := forallb (fun c => negb (is_digit c)) s = true.

(** The ISO 8601 text for the fields a format has. *)
Definition iso (y m d : option Z) : str :=
  match y with Some y => four y | None => u "-" end ++
  match m with Some m => u "-" ++ two m | None => [] end ++
  match d with Some d => u "-" ++ two d | None => [] end.

(** ** Texts of the numeric formats *)

(** [numeric_text dig trail fs ps t]: the numbers [ps] for the fields [fs], with digits of the
    class [dig], one or two digits for days and months, one, two or four for years, separated by
    non-empty texts without digits; after the last one a text without digits is allowed when
    [trail]. *)
Definition lens_of (f : field) : list nat :=
  match f with FYear => [1; 2; 4]%nat | _ => [1; 2]%nat end.
Definition digits_in (dig : N -> bool) (lens : list nat) (s : str) : Prop :=
  forallb dig s = true /\ In (length s) lens.
Definition no_digit (dig : N -> bool) (s : str) : Prop := forallb (fun c => negb (dig c)) s = true.
Inductive numeric_text (dig : N -> bool) (trail : bool) : list field -> list str -> str -> Prop :=
| nt_last f p rest :
    digits_in dig (lens_of f) p -> no_digit dig rest -> (trail = false -> rest = []) ->
    numeric_text dig trail [f] [p] (p ++ rest)
| nt_more f p sep fs ps t :
    digits_in dig (lens_of f) p -> no_digit dig sep -> sep <> [] ->
    numeric_text dig trail fs ps t ->
    numeric_text dig trail (f :: fs) (p :: ps) (p ++ sep ++ t).

Definition ascii_or (z : N) (c : N) : bool := is_digit c || ((z <=? c) && (c <=? z + 9))%N.
Definition devanagari_or_ascii := ascii_or 2406.
Definition fullwidth_or_ascii := ascii_or 65296.

(** Fields, digits and trailing text of the numeric formats. *)
Definition numeric_date_formats : list (str * (list field * (N -> bool) * bool)) := [
  (u "ixt:date-day-month", ([FDay; FMonth], is_digit, false));
  (u "ixt:date-month-day", ([FMonth; FDay], is_digit, false));
  (u "ixt:date-day-month-year", ([FDay; FMonth; FYear], devanagari_or_ascii, false));
  (u "ixt:date-month-day-year", ([FMonth; FDay; FYear], is_digit, false));
  (u "ixt:date-year-month-day", ([FYear; FMonth; FDay], fullwidth_or_ascii, true));
  (u "ixt:date-year-month", ([FYear; FMonth], fullwidth_or_ascii, true));
  (u "ixt:date-month-year", ([FMonth; FYear], devanagari_or_ascii, false))].

(** The piece for a field. *)
Fixpoint piece (fs : list field) (ps : list str) (f : field) : option str :=
  match fs, ps with
  | g :: fs', p :: ps' =>
      match g, f with
      | FDay, FDay | FMonth, FMonth | FYear, FYear => Some p
      | _, _ => piece fs' ps' f
      end
  | _, _ => None
  end.

Definition day_num fs ps : option Z := option_map num_val (piece fs ps FDay).
Definition year_num fs ps : option Z := option_map year_meant (piece fs ps FYear).

(** What error is due for the date: the day must exist; without a day, the year must be in the
    calendar; without a year nothing is checked by the calendar of a particular year. *)
Definition date_possible (y : option Z) (m : Z) (d : option Z) : Prop :=
  match y, d with
  | Some y, Some d => real_day y m d
  | Some y, None => 1 <= y
  | None, Some d => exists y', real_day y' m d
  | None, None => True
  end.

(** ** Month names *)

(** Names of the months (all inflections and transliterations that an abbreviation may be taken
    from).  A spelling names a month when, in lower case, it is an abbreviation (prefix) of one of
    the month's names and of no other month's name. *)
Definition words (s : string) : list str :=
  (fix go (cur : str) (l : str) : list str :=
     match l with
     | [] => match cur with [] => [] | _ => [rev cur] end
     | c :: l' => if N.eqb c 32 then match cur with [] => go [] l' | _ => rev cur :: go [] l' end
                  else go (c :: cur) l'
     end) [] (u s).
Definition months (l : list string) : list (list str) := map words l.

Definition month_names : list (str * list (list str)) := [
  (u "bg", months ["януари"; "февруари"; "март"; "април"; "май маи"; "юни"; "юли"; "август";
                   "септември"; "октомври"; "ноември"; "декември"]);
  (u "cs", months ["leden ledna lednu"; "únor února únoru unor unora unoru";
                   "březen března březnu brezen brezna breznu"; "duben dubna dubnu";
                   "květen května květnu kveten kvetna kvetnu";
                   "červen června červnu cerven cervna cervnu čvn cvn";
                   "červenec července červenci cervenec cervence cervenci čvc cvc";
                   "srpen srpna srpnu"; "září zari"; "říjen října říjnu rijen rijna rijnu";
                   "listopad listopadu"; "prosinec prosince prosinci"]);
  (u "cy", months ["ionawr"; "chwefror"; "mawrth"; "ebrill"; "mai"; "mehefin"; "gorffennaf"; "awst";
                   "medi"; "hydref"; "tachwedd"; "rhagfyr"]);
  (u "da", months ["januar"; "februar"; "marts"; "april"; "maj"; "juni"; "juli"; "august";
                   "september"; "oktober"; "november"; "december"]);
  (u "de", months ["januar jänner jaenner"; "februar"; "märz maerz marz"; "april"; "mai"; "juni";
                   "juli"; "august"; "september"; "oktober"; "november"; "dezember"]);
  (u "en", months ["january"; "february"; "march"; "april"; "may"; "june"; "july"; "august";
                   "september"; "october"; "november"; "december"]);
  (u "es", months ["enero"; "febrero"; "marzo"; "abril"; "mayo"; "junio"; "julio"; "agosto";
                   "septiembre"; "octubre"; "noviembre"; "diciembre"]);
  (u "et", months ["jaanuar"; "veebruar"; "märts marts"; "aprill"; "mai"; "juuni"; "juuli"; "august";
                   "september"; "oktoober"; "november"; "detsember"]);
  (u "fi", months ["tammikuu tammikuuta"; "helmikuu helmikuuta"; "maaliskuu maaliskuuta";
                   "huhtikuu huhtikuuta"; "toukokuu toukokuuta"; "kesäkuu kesäkuuta";
                   "heinäkuu heinäkuuta"; "elokuu elokuuta"; "syyskuu syyskuuta"; "lokakuu lokakuuta";
                   "marraskuu marraskuuta"; "joulukuu joulukuuta"]);
  (u "fr", months ["janvier"; "février fevrier"; "mars"; "avril"; "mai"; "juin"; "juillet";
                   "août aout"; "septembre"; "octobre"; "novembre"; "décembre decembre"]);
  (u "hi", months ["जनवरी"; "फरवरी"; "मार्च"; "अप्रैल"; "मई"; "जून"; "जुलाई"; "अगस्त"; "सितंबर";
                   "अक्टूबर"; "नवंबर"; "दिसंबर"]);
  (u "hr", months ["siječanj siječnja"; "veljača veljače"; "ožujak ožujka ozujak ozujka";
                   "travanj travnja"; "svibanj svibnja"; "lipanj lipnja"; "srpanj srpnja";
                   "kolovoz kolovoza"; "rujan rujna"; "listopad listopada"; "studeni studenoga";
                   "prosinac prosinca"]);
  (u "hu", months ["január"; "február"; "március marcius"; "április aprilis"; "május majus";
                   "június junius"; "július julius"; "augusztus"; "szeptember"; "október";
                   "november"; "december"]);
  (u "it", months ["gennaio"; "febbraio"; "marzo"; "aprile"; "maggio"; "giugno"; "luglio"; "agosto";
                   "settembre"; "ottobre"; "novembre"; "dicembre"]);
  (u "lt", months ["sausis sausio"; "vasaris vasario"; "kovas kovo"; "balandis balandžio";
                   "gegužė gegužės"; "birželis birželio"; "liepa liepos"; "rugpjūtis rugpjūčio rgp";
                   "rugsėjis rugsėjo rgs"; "spalis spalio spl"; "lapkritis lapkričio";
                   "gruodis gruodžio grd"]);
  (u "lv", months ["janvāris"; "februāris"; "marts"; "aprīlis"; "maijs"; "jūnijs junijs";
                   "jūlijs julijs"; "augusts"; "septembris"; "oktobris"; "novembris"; "decembris"]);
  (u "nl", months ["januari"; "februari"; "maart mrt"; "april"; "mei"; "juni"; "juli"; "augustus";
                   "september"; "oktober"; "november"; "december"]);
  (u "no", months ["januar"; "februar"; "mars"; "april"; "mai"; "juni"; "juli"; "august";
                   "september"; "oktober"; "november"; "desember"]);
  (u "pl", months ["styczeń stycznia"; "luty lutego"; "marzec marca"; "kwiecień kwietnia"; "maj maja";
                   "czerwiec czerwca"; "lipiec lipca"; "sierpień sierpnia"; "wrzesień września";
                   "październik października pazdziernik pazdziernika"; "listopad listopada";
                   "grudzień grudnia"]);
  (u "pt", months ["janeiro"; "fevereiro"; "março"; "abril"; "maio"; "junho"; "julho"; "agosto";
                   "setembro"; "outubro"; "novembro"; "dezembro"]);
  (u "ro", months ["ianuarie"; "februarie"; "martie"; "aprilie"; "mai"; "iunie"; "iulie"; "august";
                   "septembrie"; "octombrie"; "noiembrie novembrie"; "decembrie"]);
  (u "sk", months ["január januára"; "február februára"; "marec marca"; "apríl apríla";
                   "máj mája maj maja"; "jún júna jun juna"; "júl júla jul jula"; "august augusta";
                   "september septembra"; "október októbra"; "november novembra"; "december decembra"]);
  (u "sl", months ["januar"; "februar"; "marec marca"; "april"; "maj"; "junij"; "julij"; "avgust";
                   "september"; "oktober"; "november"; "december"]);
  (u "sv", months ["januari"; "februari"; "mars"; "april"; "maj"; "juni"; "juli"; "augusti";
                   "september"; "oktober"; "november"; "december"])]%string.

Fixpoint is_prefix (p s : str) : bool :=
  match p, s with
  | [], _ => true
  | a :: p', b :: s' => N.eqb a b && is_prefix p' s'
  | _ :: _, [] => false
  end.

(** [names_month lang s m]: in language [lang] the lower-case word [s] is a name of month [m], or
    abbreviates a name of month [m] and of no other month. *)
Definition names_of (lang : str) (m : nat) (n : str) : Prop :=
  exists ms ns, In (lang, ms) month_names /\ nth_error ms (m - 1) = Some ns /\ In n ns.
Definition names_month (lang : str) (s : str) (m : nat) : Prop :=
  (1 <= m <= 12)%nat /\
  (names_of lang m s \/
   ((exists n, names_of lang m n /\ is_prefix s n = true) /\
    forall k n, (1 <= k <= 12)%nat -> names_of lang k n -> is_prefix s n = true -> k = m)).

(** Date formats with month names: language and order of the fields. *)
Definition triple (lang : string) : list (str * (str * list field)) := [
  (u ("ixt:date-day-monthname-" ++ lang), (u lang, [FDay; FMonth]));
  (u ("ixt:date-day-monthname-year-" ++ lang), (u lang, [FDay; FMonth; FYear]));
  (u ("ixt:date-monthname-year-" ++ lang), (u lang, [FMonth; FYear]))]%string.
Definition name_date_formats : list (str * (str * list field)) :=
  concat (map triple ["bg"; "cs"; "da"; "en"; "es"; "et"; "fi"; "fr"; "hr"; "it"; "no"; "pl"; "pt";
                      "ro"; "sk"; "sv"]%string) ++ [
  (u "ixt:date-monthname-day-en", (u "en", [FMonth; FDay]));
  (u "ixt:date-monthname-day-year-en", (u "en", [FMonth; FDay; FYear]));
  (u "ixt:date-year-monthname-en", (u "en", [FYear; FMonth]));
  (u "ixt:date-monthname-day-hu", (u "hu", [FMonth; FDay]));
  (u "ixt:date-year-monthname-day-hu", (u "hu", [FYear; FMonth; FDay]));
  (u "ixt:date-year-monthname-hu", (u "hu", [FYear; FMonth]));
  (u "ixt:date-day-monthname-lv", (u "lv", [FDay; FMonth]));
  (u "ixt:date-year-day-monthname-lv", (u "lv", [FYear; FDay; FMonth]));
  (u "ixt:date-year-monthname-lv", (u "lv", [FYear; FMonth]));
  (u "ixt:date-day-monthname-cy", (u "cy", [FDay; FMonth]));
  (u "ixt:date-day-monthname-year-cy", (u "cy", [FDay; FMonth; FYear]));
  (u "ixt:date-monthname-year-sl", (u "sl", [FMonth; FYear]));
  (u "ixt:date-day-monthname-year-hi", (u "hi", [FDay; FMonth; FYear]));
  (u "ixt:date-monthname-year-hi", (u "hi", [FMonth; FYear]))]%string.

(** Formats for texts with a full month name: the pattern cannot pick up a different month's
    abbreviation inside a name. *)
Definition full_name_formats : list (str * (str * list field)) :=
  filter (fun e => negb (existsb (str_eqb (fst (snd e))) [u "fi"; u "pl"; u "cy"]
                         || str_eqb (fst e) (u "ixt:date-monthname-year-cs"))) name_date_formats.
(** Characters around the month name: digits and simple punctuation. *)
Definition plain (c : N) : bool := is_num_char c || mem_char c (u " .,-/()").

(** ** Japanese eras: first Gregorian year. *)
Definition eras : list (str * Z) := [
  (u "明治", 1868); (u "明", 1868); (u "大正", 1912); (u "大", 1912); (u "昭和", 1926); (u "昭", 1926);
  (u "平成", 1989); (u "平", 1989); (u "令和", 2019); (u "令", 2019)].
Definition era_year (first : Z) (y : str) : option Z :=
  if str_eqb y (u "元") then Some first
  else if forallb fullwidth_or_ascii y then Some (first + num_val y - 1) else None.

Definition spaces (s : str) : Prop := forallb is_space s = true.

(** [era_text day t e y m d]: the text [t] is the name [e] of an era, the year [y] of the era (a
    number or the special name of the first year) before 年, the month [m] before 月 and, when
    [day], the day [d] before 日; spaces are allowed in between. *)
Definition era_text (day : bool) (t e y m d : str) : Prop :=
  exists s1 s2 s3 s4 s5 s6 first,
    In (e, first) eras /\ spaces s1 /\ spaces s2 /\ spaces s3 /\ spaces s4 /\ spaces s5 /\ spaces s6 /\
    (y = u "元" \/ digits_in fullwidth_or_ascii [1; 2]%nat y) /\
    digits_in fullwidth_or_ascii [1; 2]%nat m /\
    (if day then digits_in fullwidth_or_ascii [1; 2]%nat d else d = []) /\
    t = e ++ s1 ++ y ++ s2 ++ u "年" ++ s3 ++ m ++ s4 ++ u "月" ++
        (if day then s5 ++ d ++ s6 ++ u "日" else []).
