(** GENERATED by tools/gen_registry.py from the text of
    brel/parsers/XHMTL/xhtml_parse_transformation_registry.py -- do not edit.
    Literal transcription of the dictionaries of that file. *)
From Verif Require Import Base Regex.
Local Open Scope N_scope.

(** number_format_to_regex, lines 11-18: format -> (regular expression, number of groups) *)
Definition number_format_to_regex : list (str * (re * nat)) := [
  ((u "ixt:num-comma-decimal-apos"), ((rseq [REps; (RGrp 1%nat (RRep (CSet false [CRange 46 46; CRange 39 39; CRange 96 96; CRange 180 180; CRange 8217 8217; CRange 8242 8242; CRange 32 32; CRange 32 32; CRange 48 57]) 0%nat None)); (ROpt (RGrp 2%nat (rseq [RLit (u ","); (RRep (CSet false [CRange 32 32; CRange 32 32; CRange 48 57]) 1%nat None)]))); REnd]), 2%nat));
  ((u "ixt:num-dot-decimal-apos"), ((rseq [REps; (RGrp 1%nat (RRep (CSet false [CRange 44 44; CRange 39 39; CRange 96 96; CRange 180 180; CRange 8217 8217; CRange 8242 8242; CRange 32 32; CRange 32 32; CRange 48 57]) 0%nat None)); (ROpt (RGrp 2%nat (rseq [RLit (u "."); (RRep (CSet false [CRange 32 32; CRange 32 32; CRange 48 57]) 1%nat None)]))); REnd]), 2%nat));
  ((u "ixt:num-unit-decimal-apos"), ((rseq [REps; (RGrp 1%nat (RRep (CSet false [CRange 48 57; CRange 65296 65305; CRange 46 46; CRange 44 44; CRange 65292 65292; CRange 39 39; CRange 96 96; CRange 180 180; CRange 8217 8217; CRange 8242 8242; CRange 65287 65287]) 1%nat None)); (RChar (CSet true [CRange 48 57; CRange 65296 65305; CRange 46 46; CRange 44 44; CRange 65292 65292; CRange 39 39; CRange 96 96; CRange 180 180; CRange 8217 8217; CRange 8242 8242; CRange 65287 65287])); (RRep (CSet true [CRange 48 57; CRange 65296 65305]) 0%nat None); (RGrp 2%nat (RRep (CSet false [CRange 48 57; CRange 65296 65305]) 1%nat (Some 2%nat))); (RRep (CSet true [CRange 48 57; CRange 65296 65305]) 0%nat None); REnd]), 2%nat));
  ((u "ixt:num-comma-decimal"), ((rseq [REps; (RGrp 1%nat (RRep (CSet false [CRange 46 46; CRange 32 32; CRange 32 32; CRange 48 57]) 0%nat None)); (ROpt (RGrp 2%nat (rseq [RLit (u ","); (RRep (CSet false [CRange 32 32; CRange 32 32; CRange 48 57]) 1%nat None)]))); REnd]), 2%nat));
  ((u "ixt:num-dot-decimal"), ((rseq [REps; (RGrp 1%nat (RRep (CSet false [CRange 44 44; CRange 32 32; CRange 32 32; CRange 48 57]) 0%nat None)); (ROpt (RGrp 2%nat (rseq [RLit (u "."); (RRep (CSet false [CRange 32 32; CRange 32 32; CRange 48 57]) 1%nat None)]))); REnd]), 2%nat));
  ((u "ixt:num-unit-decimal"), ((rseq [REps; (RGrp 1%nat (RRep (CSet false [CRange 48 57; CRange 65296 65305; CRange 46 46; CRange 44 44; CRange 65292 65292]) 1%nat None)); (RChar (CSet true [CRange 48 57; CRange 65296 65305; CRange 46 46; CRange 44 44; CRange 65292 65292])); (RRep (CSet true [CRange 48 57; CRange 65296 65305]) 0%nat None); (RGrp 2%nat (RRep (CSet false [CRange 48 57; CRange 65296 65305]) 1%nat (Some 2%nat))); (RRep (CSet true [CRange 48 57; CRange 65296 65305]) 0%nat None); REnd]), 2%nat))
].

(** date_format_to_regex, lines 20-111: format -> (regular expression, number of groups) *)
Definition date_format_to_regex : list (str * (re * nat)) := [
  ((u "ixt:date-day-monthname-cy"), ((rseq [REps; (RGrp 1%nat (RRep (CSet false [CRange 48 57]) 1%nat (Some 2%nat))); (RRep (CSet true [CRange 48 57]) 0%nat None); (RRep (CSet true [CRange 48 57; CRange 97 122; CRange 65 90]) 1%nat None); (RGrp 2%nat (ralts [(RLit (u "ion")); (RLit (u "chwe")); (RLit (u "maw")); (RLit (u "ebr")); (RLit (u "mai")); (RLit (u "meh")); (RLit (u "gor")); (RLit (u "aws")); (RLit (u "med")); (RLit (u "hyd")); (RLit (u "tach")); (RLit (u "rhag")); (RLit (u "ION")); (RLit (u "CHWE")); (RLit (u "MAW")); (RLit (u "EBR")); (RLit (u "MAI")); (RLit (u "MEH")); (RLit (u "GOR")); (RLit (u "AWS")); (RLit (u "MED")); (RLit (u "HYD")); (RLit (u "TACH")); (RLit (u "RHAG")); (RLit (u "Ion")); (RLit (u "Chwe")); (RLit (u "Maw")); (RLit (u "Ebr")); (RLit (u "Mai")); (RLit (u "Meh")); (RLit (u "Gor")); (RLit (u "Aws")); (RLit (u "Med")); (RLit (u "Hyd")); (RLit (u "Tach")); (RLit (u "Rhag"))])); (RRep (CSet true [CRange 48 57]) 0%nat (Some 7%nat)); REnd]), 2%nat));
  ((u "ixt:date-monthname-year-cy"), ((rseq [REps; (RGrp 1%nat (ralts [(RLit (u "ion")); (RLit (u "chwe")); (RLit (u "maw")); (RLit (u "faw")); (RLit (u "ebr")); (RLit (u "mai")); (RLit (u "fai")); (RLit (u "meh")); (RLit (u "feh")); (RLit (u "gor")); (RLit (u "ngor")); (RLit (u "aws")); (RLit (u "med")); (RLit (u "fed")); (RLit (u "hyd")); (RLit (u "tach")); (RLit (u "dach")); (RLit (u "nhach")); (RLit (u "thach")); (RLit (u "rhag")); (RLit (u "rag")); (RLit (u "ION")); (RLit (u "CHWE")); (RLit (u "MAW")); (RLit (u "FAW")); (RLit (u "EBR")); (RLit (u "MAI")); (RLit (u "FAI")); (RLit (u "MEH")); (RLit (u "FEH")); (RLit (u "GOR")); (RLit (u "NGOR")); (RLit (u "AWS")); (RLit (u "MED")); (RLit (u "FED")); (RLit (u "HYD")); (RLit (u "TACH")); (RLit (u "DACH")); (RLit (u "NHACH")); (RLit (u "THACH")); (RLit (u "RHAG")); (RLit (u "RAG")); (RLit (u "Ion")); (RLit (u "Chwe")); (RLit (u "Maw")); (RLit (u "Faw")); (RLit (u "Ebr")); (RLit (u "Mai")); (RLit (u "Fai")); (RLit (u "Meh")); (RLit (u "Feh")); (RLit (u "Gor")); (RLit (u "Ngor")); (RLit (u "Aws")); (RLit (u "Med")); (RLit (u "Fedi")); (RLit (u "Hyd")); (RLit (u "Tach")); (RLit (u "Dach")); (RLit (u "Nhach")); (RLit (u "Thach")); (RLit (u "Rhag")); (RLit (u "Rag"))])); (RRep (CSet true [CRange 48 57]) 1%nat None); (RGrp 2%nat (ralts [(RRep (CSet false [CRange 48 57]) 1%nat (Some 2%nat)); (RRep (CSet false [CRange 48 57]) 4%nat (Some 4%nat))])); REnd]), 2%nat));
  ((u "ixt:date-day-monthname-year-cy"), ((rseq [REps; (RGrp 1%nat (RRep (CSet false [CRange 48 57]) 1%nat (Some 2%nat))); (RRep (CSet true [CRange 48 57]) 0%nat None); (RRep (CSet true [CRange 48 57; CRange 97 122; CRange 65 90]) 1%nat None); (RGrp 2%nat (ralts [(RLit (u "ion")); (RLit (u "chwe")); (RLit (u "maw")); (RLit (u "ebr")); (RLit (u "mai")); (RLit (u "meh")); (RLit (u "gor")); (RLit (u "aws")); (RLit (u "med")); (RLit (u "hyd")); (RLit (u "tach")); (RLit (u "rhag")); (RLit (u "ION")); (RLit (u "CHWE")); (RLit (u "MAW")); (RLit (u "EBR")); (RLit (u "MAI")); (RLit (u "MEH")); (RLit (u "GOR")); (RLit (u "AWS")); (RLit (u "MED")); (RLit (u "HYD")); (RLit (u "TACH")); (RLit (u "RHAG")); (RLit (u "Ion")); (RLit (u "Chwe")); (RLit (u "Maw")); (RLit (u "Ebr")); (RLit (u "Mai")); (RLit (u "Meh")); (RLit (u "Gor")); (RLit (u "Aws")); (RLit (u "Med")); (RLit (u "Hyd")); (RLit (u "Tach")); (RLit (u "Rhag"))])); (RRep (CSet true [CRange 48 57]) 1%nat None); (RGrp 3%nat (ralts [(RRep (CSet false [CRange 48 57]) 1%nat (Some 2%nat)); (RRep (CSet false [CRange 48 57]) 4%nat (Some 4%nat))])); REnd]), 3%nat));
  ((u "ixt:date-day-month"), ((rseq [REps; (RGrp 1%nat (RRep (CSet false [CRange 48 57]) 1%nat (Some 2%nat))); (RRep (CSet true [CRange 48 57]) 1%nat None); (RGrp 2%nat (RRep (CSet false [CRange 48 57]) 1%nat (Some 2%nat))); REnd]), 2%nat));
  ((u "ixt:date-month-day"), ((rseq [REps; (RGrp 1%nat (RRep (CSet false [CRange 48 57]) 1%nat (Some 2%nat))); (RRep (CSet true [CRange 48 57]) 1%nat None); (RGrp 2%nat (RRep (CSet false [CRange 48 57]) 1%nat (Some 2%nat))); REnd]), 2%nat));
  ((u "ixt:date-day-month-year"), ((rseq [REps; (RGrp 1%nat (RRep (CSet false [CRange 48 57; CRange 2406 2415]) 1%nat (Some 2%nat))); (RRep (CSet true [CRange 48 57; CRange 2406 2415]) 1%nat None); (RGrp 2%nat (RRep (CSet false [CRange 48 57; CRange 2406 2415]) 1%nat (Some 2%nat))); (RRep (CSet true [CRange 48 57; CRange 2406 2415]) 1%nat None); (RGrp 3%nat (ralts [(RRep (CSet false [CRange 48 57; CRange 2406 2415]) 1%nat (Some 2%nat)); (RRep (CSet false [CRange 48 57; CRange 2406 2415]) 4%nat (Some 4%nat))])); REnd]), 3%nat));
  ((u "ixt:date-month-day-year"), ((rseq [REps; (RGrp 1%nat (RRep (CSet false [CRange 48 57]) 1%nat (Some 2%nat))); (RRep (CSet true [CRange 48 57]) 1%nat None); (RGrp 2%nat (RRep (CSet false [CRange 48 57]) 1%nat (Some 2%nat))); (RRep (CSet true [CRange 48 57]) 1%nat None); (RGrp 3%nat (ralts [(RRep (CSet false [CRange 48 57]) 1%nat (Some 2%nat)); (RRep (CSet false [CRange 48 57]) 4%nat (Some 4%nat))])); REnd]), 3%nat));
  ((u "ixt:date-year-month-day"), ((rseq [REps; (RGrp 1%nat (ralts [(RRep (CSet false [CRange 48 57; CRange 65296 65305]) 1%nat (Some 2%nat)); (RRep (CSet false [CRange 48 57; CRange 65296 65305]) 4%nat (Some 4%nat))])); (RRep (CSet true [CRange 48 57; CRange 65296 65305]) 1%nat None); (RGrp 2%nat (RRep (CSet false [CRange 48 57; CRange 65296 65305]) 1%nat (Some 2%nat))); (RRep (CSet true [CRange 48 57; CRange 65296 65305]) 1%nat None); (RGrp 3%nat (RRep (CSet false [CRange 48 57; CRange 65296 65305]) 1%nat (Some 2%nat))); (RRep (CSet true [CRange 48 57; CRange 65296 65305]) 0%nat None); REnd]), 3%nat));
  ((u "ixt:date-year-month"), ((rseq [REps; (RGrp 1%nat (ralts [(RRep (CSet false [CRange 48 57; CRange 65296 65305]) 1%nat (Some 2%nat)); (RRep (CSet false [CRange 48 57; CRange 65296 65305]) 4%nat (Some 4%nat))])); (RRep (CSet true [CRange 48 57; CRange 65296 65305]) 1%nat None); (RGrp 2%nat (RRep (CSet false [CRange 48 57; CRange 65296 65305]) 1%nat (Some 2%nat))); (RRep (CSet true [CRange 48 57; CRange 65296 65305]) 0%nat None); REnd]), 2%nat));
  ((u "ixt:date-month-year"), ((rseq [REps; (RGrp 1%nat (RRep (CSet false [CRange 48 57; CRange 2406 2415]) 1%nat (Some 2%nat))); (RRep (CSet true [CRange 48 57; CRange 2406 2415]) 1%nat None); (RGrp 2%nat (ralts [(RRep (CSet false [CRange 48 57; CRange 2406 2415]) 1%nat (Some 2%nat)); (RRep (CSet false [CRange 48 57; CRange 2406 2415]) 4%nat (Some 4%nat))])); REnd]), 2%nat));
  ((u "ixt:date-day-monthname-bg"), ((rseq [REps; (RGrp 1%nat (RRep (CSet false [CRange 48 57]) 1%nat (Some 2%nat))); (RRep (CSet true [CRange 48 57]) 1%nat None); (RGrp 2%nat (ralts [(RLit (u "ян")); (RLit (u "фев")); (RLit (u "мар")); (RLit (u "апр")); (RLit (u "май")); (RLit (u "маи")); (RLit (u "юни")); (RLit (u "юли")); (RLit (u "авг")); (RLit (u "сеп")); (RLit (u "окт")); (RLit (u "ное")); (RLit (u "дек")); (RLit (u "ЯН")); (RLit (u "ФЕВ")); (RLit (u "МАР")); (RLit (u "АПР")); (RLit (u "МАЙ")); (RLit (u "МАИ")); (RLit (u "ЮНИ")); (RLit (u "ЮЛИ")); (RLit (u "АВГ")); (RLit (u "СЕП")); (RLit (u "ОКТ")); (RLit (u "НОЕ")); (RLit (u "ДЕК")); (RLit (u "Ян")); (RLit (u "Фев")); (RLit (u "Мар")); (RLit (u "Апр")); (RLit (u "Май")); (RLit (u "Маи")); (RLit (u "Юни")); (RLit (u "Юли")); (RLit (u "Авг")); (RLit (u "Сеп")); (RLit (u "Окт")); (RLit (u "Ное")); (RLit (u "Дек"))])); (RRep (CSet true [CRange 48 57]) 0%nat (Some 6%nat)); REnd]), 2%nat));
  ((u "ixt:date-day-monthname-year-bg"), ((rseq [REps; (RGrp 1%nat (RRep (CSet false [CRange 48 57]) 1%nat (Some 2%nat))); (RRep (CSet true [CRange 48 57]) 1%nat None); (RGrp 2%nat (ralts [(RLit (u "ян")); (RLit (u "фев")); (RLit (u "мар")); (RLit (u "апр")); (RLit (u "май")); (RLit (u "маи")); (RLit (u "юни")); (RLit (u "юли")); (RLit (u "авг")); (RLit (u "сеп")); (RLit (u "окт")); (RLit (u "ное")); (RLit (u "дек")); (RLit (u "ЯН")); (RLit (u "ФЕВ")); (RLit (u "МАР")); (RLit (u "АПР")); (RLit (u "МАЙ")); (RLit (u "МАИ")); (RLit (u "ЮНИ")); (RLit (u "ЮЛИ")); (RLit (u "АВГ")); (RLit (u "СЕП")); (RLit (u "ОКТ")); (RLit (u "НОЕ")); (RLit (u "ДЕК")); (RLit (u "Ян")); (RLit (u "Фев")); (RLit (u "Мар")); (RLit (u "Апр")); (RLit (u "Май")); (RLit (u "Маи")); (RLit (u "Юни")); (RLit (u "Юли")); (RLit (u "Авг")); (RLit (u "Сеп")); (RLit (u "Окт")); (RLit (u "Ное")); (RLit (u "Дек"))])); (RRep (CSet true [CRange 48 57]) 1%nat None); (RGrp 3%nat (ralts [(RRep (CSet false [CRange 48 57]) 1%nat (Some 2%nat)); (RRep (CSet false [CRange 48 57]) 4%nat (Some 4%nat))])); (RRep (CSet true [CRange 48 57]) 0%nat None); REnd]), 3%nat));
  ((u "ixt:date-monthname-year-bg"), ((rseq [REps; (RGrp 1%nat (ralts [(RLit (u "ян")); (RLit (u "фев")); (RLit (u "мар")); (RLit (u "апр")); (RLit (u "май")); (RLit (u "маи")); (RLit (u "юни")); (RLit (u "юли")); (RLit (u "авг")); (RLit (u "сеп")); (RLit (u "окт")); (RLit (u "ное")); (RLit (u "дек")); (RLit (u "ЯН")); (RLit (u "ФЕВ")); (RLit (u "МАР")); (RLit (u "АПР")); (RLit (u "МАЙ")); (RLit (u "МАИ")); (RLit (u "ЮНИ")); (RLit (u "ЮЛИ")); (RLit (u "АВГ")); (RLit (u "СЕП")); (RLit (u "ОКТ")); (RLit (u "НОЕ")); (RLit (u "ДЕК")); (RLit (u "Ян")); (RLit (u "Фев")); (RLit (u "Мар")); (RLit (u "Апр")); (RLit (u "Май")); (RLit (u "Маи")); (RLit (u "Юни")); (RLit (u "Юли")); (RLit (u "Авг")); (RLit (u "Сеп")); (RLit (u "Окт")); (RLit (u "Ное")); (RLit (u "Дек"))])); (RRep (CSet true [CRange 48 57]) 1%nat None); (RGrp 2%nat (ralts [(RRep (CSet false [CRange 48 57]) 1%nat (Some 2%nat)); (RRep (CSet false [CRange 48 57]) 4%nat (Some 4%nat))])); (RRep (CSet true [CRange 48 57]) 0%nat None); REnd]), 2%nat));
  ((u "ixt:date-day-monthname-cs"), ((rseq [REps; (RGrp 1%nat (RRep (CSet false [CRange 48 57]) 1%nat (Some 2%nat))); (RRep (CSet true [CRange 48 57]) 1%nat None); (RGrp 2%nat (ralts [(RLit (u "ledna")); (RLit (u "února")); (RLit (u "unora")); (RLit (u "března")); (RLit (u "brezna")); (RLit (u "dubna")); (RLit (u "května")); (RLit (u "kvetna")); (RLit (u "června")); (RLit (u "cervna")); (RLit (u "července")); (RLit (u "cervence")); (RLit (u "srpna")); (RLit (u "září")); (RLit (u "zari")); (RLit (u "října")); (RLit (u "rijna")); (RLit (u "listopadu")); (RLit (u "prosince")); (RLit (u "led")); (RLit (u "úno")); (RLit (u "uno")); (RLit (u "bře")); (RLit (u "bre")); (RLit (u "dub")); (RLit (u "kvě")); (RLit (u "kve")); (RLit (u "čvn")); (RLit (u "cvn")); (RLit (u "čvc")); (RLit (u "cvc")); (RLit (u "srp")); (RLit (u "zář")); (RLit (u "zar")); (RLit (u "říj")); (RLit (u "rij")); (RLit (u "lis")); (RLit (u "pro")); (RLit (u "LEDNA")); (RLit (u "ÚNORA")); (RLit (u "UNORA")); (RLit (u "BŘEZNA")); (RLit (u "BREZNA")); (RLit (u "DUBNA")); (RLit (u "KVĚTNA")); (RLit (u "KVETNA")); (RLit (u "ČERVNA")); (RLit (u "CERVNA")); (RLit (u "ČERVENCE")); (RLit (u "CERVENCE")); (RLit (u "SRPNA")); (RLit (u "ZÁŘÍ")); (RLit (u "ZARI")); (RLit (u "ŘÍJNA")); (RLit (u "RIJNA")); (RLit (u "LISTOPADU")); (RLit (u "PROSINCE")); (RLit (u "LED")); (RLit (u "ÚNO")); (RLit (u "UNO")); (RLit (u "BŘE")); (RLit (u "BRE")); (RLit (u "DUB")); (RLit (u "KVĚ")); (RLit (u "KVE")); (RLit (u "ČVN")); (RLit (u "CVN")); (RLit (u "ČVC")); (RLit (u "CVC")); (RLit (u "SRP")); (RLit (u "ZÁŘ")); (RLit (u "ZAR")); (RLit (u "ŘÍJ")); (RLit (u "RIJ")); (RLit (u "LIS")); (RLit (u "PRO")); (RLit (u "Ledna")); (RLit (u "Února")); (RLit (u "Unora")); (RLit (u "Března")); (RLit (u "Brezna")); (RLit (u "Dubna")); (RLit (u "Května")); (RLit (u "Kvetna")); (RLit (u "Června")); (RLit (u "Cervna")); (RLit (u "Července")); (RLit (u "Cervence")); (RLit (u "Srpna")); (RLit (u "Září")); (RLit (u "Zari")); (RLit (u "Října")); (RLit (u "Rijna")); (RLit (u "Listopadu")); (RLit (u "Prosince")); (RLit (u "Led")); (RLit (u "Úno")); (RLit (u "Uno")); (RLit (u "Bře")); (RLit (u "Bre")); (RLit (u "Dub")); (RLit (u "Kvě")); (RLit (u "Kve")); (RLit (u "Čvn")); (RLit (u "Cvn")); (RLit (u "Čvc")); (RLit (u "Cvc")); (RLit (u "Srp")); (RLit (u "Zář")); (RLit (u "Zar")); (RLit (u "Říj")); (RLit (u "Rij")); (RLit (u "Lis")); (RLit (u "Pro"))])); (RRep (CSet false [CRange 46 46]) 0%nat (Some 1%nat)); REnd]), 2%nat));
  ((u "ixt:date-day-monthname-year-cs"), ((rseq [REps; (RGrp 1%nat (RRep (CSet false [CRange 48 57]) 1%nat (Some 2%nat))); (RRep (CSet true [CRange 48 57]) 1%nat None); (RGrp 2%nat (ralts [(RLit (u "ledna")); (RLit (u "února")); (RLit (u "unora")); (RLit (u "března")); (RLit (u "brezna")); (RLit (u "dubna")); (RLit (u "května")); (RLit (u "kvetna")); (RLit (u "června")); (RLit (u "cervna")); (RLit (u "července")); (RLit (u "cervence")); (RLit (u "srpna")); (RLit (u "září")); (RLit (u "zari")); (RLit (u "října")); (RLit (u "rijna")); (RLit (u "listopadu")); (RLit (u "prosince")); (RLit (u "led")); (RLit (u "úno")); (RLit (u "uno")); (RLit (u "bře")); (RLit (u "bre")); (RLit (u "dub")); (RLit (u "kvě")); (RLit (u "kve")); (RLit (u "čvn")); (RLit (u "cvn")); (RLit (u "čvc")); (RLit (u "cvc")); (RLit (u "srp")); (RLit (u "zář")); (RLit (u "zar")); (RLit (u "říj")); (RLit (u "rij")); (RLit (u "lis")); (RLit (u "pro")); (RLit (u "LEDNA")); (RLit (u "ÚNORA")); (RLit (u "UNORA")); (RLit (u "BŘEZNA")); (RLit (u "BREZNA")); (RLit (u "DUBNA")); (RLit (u "KVĚTNA")); (RLit (u "KVETNA")); (RLit (u "ČERVNA")); (RLit (u "CERVNA")); (RLit (u "ČERVENCE")); (RLit (u "CERVENCE")); (RLit (u "SRPNA")); (RLit (u "ZÁŘÍ")); (RLit (u "ZARI")); (RLit (u "ŘÍJNA")); (RLit (u "RIJNA")); (RLit (u "LISTOPADU")); (RLit (u "PROSINCE")); (RLit (u "LED")); (RLit (u "ÚNO")); (RLit (u "UNO")); (RLit (u "BŘE")); (RLit (u "BRE")); (RLit (u "DUB")); (RLit (u "KVĚ")); (RLit (u "KVE")); (RLit (u "ČVN")); (RLit (u "CVN")); (RLit (u "ČVC")); (RLit (u "CVC")); (RLit (u "SRP")); (RLit (u "ZÁŘ")); (RLit (u "ZAR")); (RLit (u "ŘÍJ")); (RLit (u "RIJ")); (RLit (u "LIS")); (RLit (u "PRO")); (RLit (u "Ledna")); (RLit (u "Února")); (RLit (u "Unora")); (RLit (u "Března")); (RLit (u "Brezna")); (RLit (u "Dubna")); (RLit (u "Května")); (RLit (u "Kvetna")); (RLit (u "Června")); (RLit (u "Cervna")); (RLit (u "Července")); (RLit (u "Cervence")); (RLit (u "Srpna")); (RLit (u "Září")); (RLit (u "Zari")); (RLit (u "Října")); (RLit (u "Rijna")); (RLit (u "Listopadu")); (RLit (u "Prosince")); (RLit (u "Led")); (RLit (u "Úno")); (RLit (u "Uno")); (RLit (u "Bře")); (RLit (u "Bre")); (RLit (u "Dub")); (RLit (u "Kvě")); (RLit (u "Kve")); (RLit (u "Čvn")); (RLit (u "Cvn")); (RLit (u "Čvc")); (RLit (u "Cvc")); (RLit (u "Srp")); (RLit (u "Zář")); (RLit (u "Zar")); (RLit (u "Říj")); (RLit (u "Rij")); (RLit (u "Lis")); (RLit (u "Pro"))])); (RRep (CSet true [CRange 48 57; CRange 97 122; CRange 65 90]) 1%nat None); (RRep (CSet true [CRange 48 57]) 0%nat None); (RGrp 3%nat (ralts [(RRep (CSet false [CRange 48 57]) 1%nat (Some 2%nat)); (RRep (CSet false [CRange 48 57]) 4%nat (Some 4%nat))])); REnd]), 3%nat));
  ((u "ixt:date-monthname-year-cs"), ((rseq [REps; (RGrp 1%nat (ralts [(RLit (u "leden")); (RLit (u "ledna")); (RLit (u "lednu")); (RLit (u "únor")); (RLit (u "unor")); (RLit (u "února")); (RLit (u "unora")); (RLit (u "únoru")); (RLit (u "unoru")); (RLit (u "březen")); (RLit (u "brezen")); (RLit (u "března")); (RLit (u "brezna")); (RLit (u "březnu")); (RLit (u "breznu")); (RLit (u "duben")); (RLit (u "dubna")); (RLit (u "dubnu")); (RLit (u "květen")); (RLit (u "kveten")); (RLit (u "května")); (RLit (u "kvetna")); (RLit (u "květnu")); (RLit (u "kvetnu")); (RLit (u "červen")); (RLit (u "cerven")); (RLit (u "června")); (RLit (u "cervna")); (RLit (u "červnu")); (RLit (u "cervnu")); (RLit (u "červenec")); (RLit (u "cervenec")); (RLit (u "července")); (RLit (u "cervence")); (RLit (u "červenci")); (RLit (u "cervenci")); (RLit (u "srpen")); (RLit (u "srpna")); (RLit (u "srpnu")); (RLit (u "září")); (RLit (u "zari")); (RLit (u "říjen")); (RLit (u "rijen")); (RLit (u "října")); (RLit (u "rijna")); (RLit (u "říjnu")); (RLit (u "rijnu")); (RLit (u "listopad")); (RLit (u "listopadu")); (RLit (u "prosinec")); (RLit (u "prosince")); (RLit (u "prosinci")); (RLit (u "led")); (RLit (u "úno")); (RLit (u "uno")); (RLit (u "bře")); (RLit (u "bre")); (RLit (u "dub")); (RLit (u "kvě")); (RLit (u "kve")); (RLit (u "čvn")); (RLit (u "cvn")); (RLit (u "čvc")); (RLit (u "cvc")); (RLit (u "srp")); (RLit (u "zář")); (RLit (u "zar")); (RLit (u "říj")); (RLit (u "rij")); (RLit (u "lis")); (RLit (u "pro")); (RLit (u "LEDEN")); (RLit (u "LEDNA")); (RLit (u "LEDNU")); (RLit (u "ÚNOR")); (RLit (u "UNOR")); (RLit (u "ÚNORA")); (RLit (u "UNORA")); (RLit (u "ÚNORU")); (RLit (u "UNORU")); (RLit (u "BŘEZEN")); (RLit (u "BREZEN")); (RLit (u "BŘEZNA")); (RLit (u "BREZNA")); (RLit (u "BŘEZNU")); (RLit (u "BREZNU")); (RLit (u "DUBEN")); (RLit (u "DUBNA")); (RLit (u "DUBNU")); (RLit (u "KVĚTEN")); (RLit (u "KVETEN")); (RLit (u "KVĚTNA")); (RLit (u "KVETNA")); (RLit (u "KVĚTNU")); (RLit (u "KVETNU")); (RLit (u "ČERVEN")); (RLit (u "CERVEN")); (RLit (u "ČERVNA")); (RLit (u "CERVNA")); (RLit (u "ČERVNU")); (RLit (u "CERVNU")); (RLit (u "ČERVENEC")); (RLit (u "CERVENEC")); (RLit (u "ČERVENCE")); (RLit (u "CERVENCE")); (RLit (u "ČERVENCI")); (RLit (u "CERVENCI")); (RLit (u "SRPEN")); (RLit (u "SRPNA")); (RLit (u "SRPNU")); (RLit (u "ZÁŘÍ")); (RLit (u "ZARI")); (RLit (u "ŘÍJEN")); (RLit (u "RIJEN")); (RLit (u "ŘÍJNA")); (RLit (u "RIJNA")); (RLit (u "ŘÍJNU")); (RLit (u "RIJNU")); (RLit (u "LISTOPAD")); (RLit (u "LISTOPADU")); (RLit (u "PROSINEC")); (RLit (u "PROSINCE")); (RLit (u "PROSINCI")); (RLit (u "LED")); (RLit (u "ÚNO")); (RLit (u "UNO")); (RLit (u "BŘE")); (RLit (u "BRE")); (RLit (u "DUB")); (RLit (u "KVĚ")); (RLit (u "KVE")); (RLit (u "ČVN")); (RLit (u "CVN")); (RLit (u "ČVC")); (RLit (u "CVC")); (RLit (u "SRP")); (RLit (u "ZÁŘ")); (RLit (u "ZAR")); (RLit (u "ŘÍJ")); (RLit (u "RIJ")); (RLit (u "LIS")); (RLit (u "PRO")); (RLit (u "Leden")); (RLit (u "Ledna")); (RLit (u "Lednu")); (RLit (u "Únor")); (RLit (u "Unor")); (RLit (u "Února")); (RLit (u "Unora")); (RLit (u "Únoru")); (RLit (u "Unoru")); (RLit (u "Březen")); (RLit (u "Brezen")); (RLit (u "Března")); (RLit (u "Brezna")); (RLit (u "Březnu")); (RLit (u "Breznu")); (RLit (u "Duben")); (RLit (u "Dubna")); (RLit (u "Dubnu")); (RLit (u "Květen")); (RLit (u "Kveten")); (RLit (u "Května")); (RLit (u "Kvetna")); (RLit (u "Květnu")); (RLit (u "Kvetnu")); (RLit (u "Červen")); (RLit (u "Cerven")); (RLit (u "Června")); (RLit (u "Cervna")); (RLit (u "Červnu")); (RLit (u "Cervnu")); (RLit (u "Červenec")); (RLit (u "Cervenec")); (RLit (u "Července")); (RLit (u "Cervence")); (RLit (u "Červenci")); (RLit (u "Cervenci")); (RLit (u "Srpen")); (RLit (u "Srpna")); (RLit (u "Srpnu")); (RLit (u "Září")); (RLit (u "Zari")); (RLit (u "Říjen")); (RLit (u "Rijen")); (RLit (u "Října")); (RLit (u "Rijna")); (RLit (u "Říjnu")); (RLit (u "Rijnu")); (RLit (u "Listopad")); (RLit (u "Listopadu")); (RLit (u "Prosinec")); (RLit (u "Prosince")); (RLit (u "Prosinci")); (RLit (u "Led")); (RLit (u "Úno")); (RLit (u "Uno")); (RLit (u "Bře")); (RLit (u "Bre")); (RLit (u "Dub")); (RLit (u "Kvě")); (RLit (u "Kve")); (RLit (u "Čvn")); (RLit (u "Cvn")); (RLit (u "Čvc")); (RLit (u "Cvc")); (RLit (u "Srp")); (RLit (u "Zář")); (RLit (u "Zar")); (RLit (u "Říj")); (RLit (u "Rij")); (RLit (u "Lis")); (RLit (u "Pro"))])); (RRep (CSet true [CRange 48 57; CRange 97 122; CRange 65 90]) 1%nat None); (RRep (CSet true [CRange 48 57]) 0%nat None); (RGrp 2%nat (ralts [(RRep (CSet false [CRange 48 57]) 1%nat (Some 2%nat)); (RRep (CSet false [CRange 48 57]) 4%nat (Some 4%nat))])); REnd]), 2%nat));
  ((u "ixt:date-day-monthname-da"), ((rseq [REps; (RGrp 1%nat (RRep (CSet false [CRange 48 57]) 1%nat (Some 2%nat))); (RRep (CSet true [CRange 48 57]) 1%nat None); (RGrp 2%nat (ralts [(RLit (u "jan")); (RLit (u "feb")); (RLit (u "mar")); (RLit (u "apr")); (RLit (u "maj")); (RLit (u "jun")); (RLit (u "jul")); (RLit (u "aug")); (RLit (u "sep")); (RLit (u "okt")); (RLit (u "nov")); (RLit (u "dec")); (RLit (u "JAN")); (RLit (u "FEB")); (RLit (u "MAR")); (RLit (u "APR")); (RLit (u "MAJ")); (RLit (u "JUN")); (RLit (u "JUL")); (RLit (u "AUG")); (RLit (u "SEP")); (RLit (u "OKT")); (RLit (u "NOV")); (RLit (u "DEC")); (RLit (u "Jan")); (RLit (u "Feb")); (RLit (u "Mar")); (RLit (u "Apr")); (RLit (u "Maj")); (RLit (u "Jun")); (RLit (u "Jul")); (RLit (u "Aug")); (RLit (u "Sep")); (RLit (u "Okt")); (RLit (u "Nov")); (RLit (u "Dec"))])); (RRep (CSet true [CRange 48 57]) 0%nat (Some 6%nat)); REnd]), 2%nat));
  ((u "ixt:date-day-monthname-year-da"), ((rseq [REps; (RGrp 1%nat (RRep (CSet false [CRange 48 57]) 1%nat (Some 2%nat))); (RRep (CSet true [CRange 48 57]) 1%nat None); (RGrp 2%nat (ralts [(RLit (u "jan")); (RLit (u "feb")); (RLit (u "mar")); (RLit (u "apr")); (RLit (u "maj")); (RLit (u "jun")); (RLit (u "jul")); (RLit (u "aug")); (RLit (u "sep")); (RLit (u "okt")); (RLit (u "nov")); (RLit (u "dec")); (RLit (u "JAN")); (RLit (u "FEB")); (RLit (u "MAR")); (RLit (u "APR")); (RLit (u "MAJ")); (RLit (u "JUN")); (RLit (u "JUL")); (RLit (u "AUG")); (RLit (u "SEP")); (RLit (u "OKT")); (RLit (u "NOV")); (RLit (u "DEC")); (RLit (u "Jan")); (RLit (u "Feb")); (RLit (u "Mar")); (RLit (u "Apr")); (RLit (u "Maj")); (RLit (u "Jun")); (RLit (u "Jul")); (RLit (u "Aug")); (RLit (u "Sep")); (RLit (u "Okt")); (RLit (u "Nov")); (RLit (u "Dec"))])); (RRep (CSet true [CRange 48 57]) 1%nat None); (RGrp 3%nat (ralts [(RRep (CSet false [CRange 48 57]) 1%nat (Some 2%nat)); (RRep (CSet false [CRange 48 57]) 4%nat (Some 4%nat))])); REnd]), 3%nat));
  ((u "ixt:date-monthname-year-da"), ((rseq [REps; (RGrp 1%nat (ralts [(RLit (u "jan")); (RLit (u "feb")); (RLit (u "mar")); (RLit (u "apr")); (RLit (u "maj")); (RLit (u "jun")); (RLit (u "jul")); (RLit (u "aug")); (RLit (u "sep")); (RLit (u "okt")); (RLit (u "nov")); (RLit (u "dec")); (RLit (u "JAN")); (RLit (u "FEB")); (RLit (u "MAR")); (RLit (u "APR")); (RLit (u "MAJ")); (RLit (u "JUN")); (RLit (u "JUL")); (RLit (u "AUG")); (RLit (u "SEP")); (RLit (u "OKT")); (RLit (u "NOV")); (RLit (u "DEC")); (RLit (u "Jan")); (RLit (u "Feb")); (RLit (u "Mar")); (RLit (u "Apr")); (RLit (u "Maj")); (RLit (u "Jun")); (RLit (u "Jul")); (RLit (u "Aug")); (RLit (u "Sep")); (RLit (u "Okt")); (RLit (u "Nov")); (RLit (u "Dec"))])); (RRep (CSet true [CRange 48 57]) 1%nat None); (RGrp 2%nat (ralts [(RRep (CSet false [CRange 48 57]) 1%nat (Some 2%nat)); (RRep (CSet false [CRange 48 57]) 4%nat (Some 4%nat))])); REnd]), 2%nat));
  ((u "ixt:date-day-monthname-de"), ((rseq [REps; (RGrp 1%nat (RRep (CSet false [CRange 48 57]) 1%nat (Some 2%nat))); (RRep (CSet true [CRange 48 57]) 1%nat None); (RGrp 2%nat (ralts [(RLit (u "jan")); (RLit (u "feb")); (RLit (u "mar")); (RLit (u "apr")); (RLit (u "maj")); (RLit (u "jun")); (RLit (u "jul")); (RLit (u "aug")); (RLit (u "sep")); (RLit (u "okt")); (RLit (u "nov")); (RLit (u "dec")); (RLit (u "JAN")); (RLit (u "FEB")); (RLit (u "MAR")); (RLit (u "APR")); (RLit (u "MAJ")); (RLit (u "JUN")); (RLit (u "JUL")); (RLit (u "AUG")); (RLit (u "SEP")); (RLit (u "OKT")); (RLit (u "NOV")); (RLit (u "DEC")); (RLit (u "Jan")); (RLit (u "Feb")); (RLit (u "Mar")); (RLit (u "Apr")); (RLit (u "Maj")); (RLit (u "Jun")); (RLit (u "Jul")); (RLit (u "Aug")); (RLit (u "Sep")); (RLit (u "Okt")); (RLit (u "Nov")); (RLit (u "Dec"))])); (RRep (CSet true [CRange 48 57]) 0%nat (Some 6%nat)); REnd]), 2%nat));
  ((u "ixt:date-day-monthname-year-de"), ((rseq [REps; (RGrp 1%nat (RRep (CSet false [CRange 48 57]) 1%nat (Some 2%nat))); (RRep (CSet true [CRange 48 57]) 1%nat None); (RGrp 2%nat (ralts [(RLit (u "jan")); (RLit (u "feb")); (RLit (u "mar")); (RLit (u "apr")); (RLit (u "maj")); (RLit (u "jun")); (RLit (u "jul")); (RLit (u "aug")); (RLit (u "sep")); (RLit (u "okt")); (RLit (u "nov")); (RLit (u "dec")); (RLit (u "JAN")); (RLit (u "FEB")); (RLit (u "MAR")); (RLit (u "APR")); (RLit (u "MAJ")); (RLit (u "JUN")); (RLit (u "JUL")); (RLit (u "AUG")); (RLit (u "SEP")); (RLit (u "OKT")); (RLit (u "NOV")); (RLit (u "DEC")); (RLit (u "Jan")); (RLit (u "Feb")); (RLit (u "Mar")); (RLit (u "Apr")); (RLit (u "Maj")); (RLit (u "Jun")); (RLit (u "Jul")); (RLit (u "Aug")); (RLit (u "Sep")); (RLit (u "Okt")); (RLit (u "Nov")); (RLit (u "Dec"))])); (RRep (CSet true [CRange 48 57]) 1%nat None); (RGrp 3%nat (ralts [(RRep (CSet false [CRange 48 57]) 1%nat (Some 2%nat)); (RRep (CSet false [CRange 48 57]) 4%nat (Some 4%nat))])); REnd]), 3%nat));
  ((u "ixt:date-monthname-year-de"), ((rseq [REps; (RGrp 1%nat (ralts [(RLit (u "jan")); (RLit (u "feb")); (RLit (u "mar")); (RLit (u "apr")); (RLit (u "maj")); (RLit (u "jun")); (RLit (u "jul")); (RLit (u "aug")); (RLit (u "sep")); (RLit (u "okt")); (RLit (u "nov")); (RLit (u "dec")); (RLit (u "JAN")); (RLit (u "FEB")); (RLit (u "MAR")); (RLit (u "APR")); (RLit (u "MAJ")); (RLit (u "JUN")); (RLit (u "JUL")); (RLit (u "AUG")); (RLit (u "SEP")); (RLit (u "OKT")); (RLit (u "NOV")); (RLit (u "DEC")); (RLit (u "Jan")); (RLit (u "Feb")); (RLit (u "Mar")); (RLit (u "Apr")); (RLit (u "Maj")); (RLit (u "Jun")); (RLit (u "Jul")); (RLit (u "Aug")); (RLit (u "Sep")); (RLit (u "Okt")); (RLit (u "Nov")); (RLit (u "Dec"))])); (RRep (CSet true [CRange 48 57]) 1%nat None); (RGrp 2%nat (ralts [(RRep (CSet false [CRange 48 57]) 1%nat (Some 2%nat)); (RRep (CSet false [CRange 48 57]) 4%nat (Some 4%nat))])); REnd]), 2%nat));
  ((u "ixt:date-day-monthname-el"), ((rseq [REps; (RGrp 1%nat (RRep (CSet false [CRange 48 57]) 1%nat (Some 2%nat))); (RRep (CSet true [CRange 48 57]) 1%nat None); (RGrp 2%nat (ralts [(RLit (u "ιαν")); (RLit (u "ίαν")); (RLit (u "φεβ")); (RLit (u "μάρ")); (RLit (u "μαρ")); (RLit (u "απρ")); (RLit (u "άπρ")); (RLit (u "αρίλ")); (RLit (u "άρίλ")); (RLit (u "αριλ")); (RLit (u "άριλ")); (RLit (u "μαΐ")); (RLit (u "μαι")); (RLit (u "μάι")); (RLit (u "μαϊ")); (RLit (u "μάϊ")); (RLit (u "ιούν")); (RLit (u "ίούν")); (RLit (u "ίουν")); (RLit (u "ιουν")); (RLit (u "ιούλ")); (RLit (u "ίούλ")); (RLit (u "ίουλ")); (RLit (u "ίουλ")); (RLit (u "ιουλ")); (RLit (u "αύγ")); (RLit (u "αυγ")); (RLit (u "σεπ")); (RLit (u "οκτ")); (RLit (u "όκτ")); (RLit (u "νοέ")); (RLit (u "νοε")); (RLit (u "δεκ")); (RLit (u "ΙΑΝ")); (RLit (u "ΊΑΝ")); (RLit (u "IΑΝ")); (RLit (u "ΦΕΒ")); (RLit (u "ΜΆΡ")); (RLit (u "ΜΑΡ")); (RLit (u "ΑΠΡ")); (RLit (u "ΆΠΡ")); (RLit (u "AΠΡ")); (RLit (u "AΡΙΛ")); (RLit (u "ΆΡΙΛ")); (RLit (u "ΑΡΙΛ")); (RLit (u "ΜΑΪ́")); (RLit (u "ΜΑΙ")); (RLit (u "ΜΆΙ")); (RLit (u "ΜΑΪ")); (RLit (u "ΜΆΪ")); (RLit (u "ΙΟΎΝ")); (RLit (u "ΊΟΎΝ")); (RLit (u "ΊΟΥΝ")); (RLit (u "IΟΥΝ")); (RLit (u "ΙΟΥΝ")); (RLit (u "IΟΥΝ")); (RLit (u "ΙΟΎΛ")); (RLit (u "ΊΟΎΛ")); (RLit (u "ΊΟΥΛ")); (RLit (u "IΟΎΛ")); (RLit (u "ΙΟΥΛ")); (RLit (u "IΟΥΛ")); (RLit (u "ΑΎΓ")); (RLit (u "ΑΥΓ")); (RLit (u "ΣΕΠ")); (RLit (u "ΟΚΤ")); (RLit (u "ΌΚΤ")); (RLit (u "OΚΤ")); (RLit (u "ΝΟΈ")); (RLit (u "ΝΟΕ")); (RLit (u "ΔΕΚ")); (RLit (u "Ιαν")); (RLit (u "Ίαν")); (RLit (u "Iαν")); (RLit (u "Φεβ")); (RLit (u "Μάρ")); (RLit (u "Μαρ")); (RLit (u "Απρ")); (RLit (u "Άπρ")); (RLit (u "Aπρ")); (RLit (u "Αρίλ")); (RLit (u "Άρίλ")); (RLit (u "Aρίλ")); (RLit (u "Aριλ")); (RLit (u "Άριλ")); (RLit (u "Αριλ")); (RLit (u "Μαΐ")); (RLit (u "Μαι")); (RLit (u "Μάι")); (RLit (u "Μαϊ")); (RLit (u "Μάϊ")); (RLit (u "Ιούν")); (RLit (u "Ίούν")); (RLit (u "Ίουν")); (RLit (u "Iούν")); (RLit (u "Ιουν")); (RLit (u "Iουν")); (RLit (u "Ιούλ")); (RLit (u "Ίούλ")); (RLit (u "Ίουλ")); (RLit (u "Iούλ")); (RLit (u "Ιουλ")); (RLit (u "Iουλ")); (RLit (u "Αύγ")); (RLit (u "Αυγ")); (RLit (u "Σεπ")); (RLit (u "Οκτ")); (RLit (u "Όκτ")); (RLit (u "Oκτ")); (RLit (u "Νοέ")); (RLit (u "Νοε")); (RLit (u "Δεκ"))])); (RRep (CSet true [CRange 48 57]) 0%nat (Some 8%nat)); REnd]), 2%nat));
  ((u "ixt:date-day-monthname-year-el"), ((rseq [REps; (RGrp 1%nat (RRep (CSet false [CRange 48 57]) 1%nat (Some 2%nat))); (RRep (CSet true [CRange 48 57]) 1%nat None); (RGrp 2%nat (ralts [(RLit (u "ιαν")); (RLit (u "ίαν")); (RLit (u "φεβ")); (RLit (u "μάρ")); (RLit (u "μαρ")); (RLit (u "απρ")); (RLit (u "άπρ")); (RLit (u "αρίλ")); (RLit (u "άρίλ")); (RLit (u "αριλ")); (RLit (u "άριλ")); (RLit (u "μαΐ")); (RLit (u "μαι")); (RLit (u "μάι")); (RLit (u "μαϊ")); (RLit (u "μάϊ")); (RLit (u "ιούν")); (RLit (u "ίούν")); (RLit (u "ίουν")); (RLit (u "ιουν")); (RLit (u "ιούλ")); (RLit (u "ίούλ")); (RLit (u "ίουλ")); (RLit (u "ίουλ")); (RLit (u "ιουλ")); (RLit (u "αύγ")); (RLit (u "αυγ")); (RLit (u "σεπ")); (RLit (u "οκτ")); (RLit (u "όκτ")); (RLit (u "νοέ")); (RLit (u "νοε")); (RLit (u "δεκ")); (RLit (u "ΙΑΝ")); (RLit (u "ΊΑΝ")); (RLit (u "IΑΝ")); (RLit (u "ΦΕΒ")); (RLit (u "ΜΆΡ")); (RLit (u "ΜΑΡ")); (RLit (u "ΑΠΡ")); (RLit (u "ΆΠΡ")); (RLit (u "AΠΡ")); (RLit (u "AΡΙΛ")); (RLit (u "ΆΡΙΛ")); (RLit (u "ΑΡΙΛ")); (RLit (u "ΜΑΪ́")); (RLit (u "ΜΑΙ")); (RLit (u "ΜΆΙ")); (RLit (u "ΜΑΪ")); (RLit (u "ΜΆΪ")); (RLit (u "ΙΟΎΝ")); (RLit (u "ΊΟΎΝ")); (RLit (u "ΊΟΥΝ")); (RLit (u "IΟΎΝ")); (RLit (u "ΙΟΥΝ")); (RLit (u "IΟΥΝ")); (RLit (u "ΙΟΎΛ")); (RLit (u "ΊΟΎΛ")); (RLit (u "ΊΟΥΛ")); (RLit (u "IΟΎΛ")); (RLit (u "ΙΟΥΛ")); (RLit (u "IΟΥΛ")); (RLit (u "ΑΎΓ")); (RLit (u "ΑΥΓ")); (RLit (u "ΣΕΠ")); (RLit (u "ΟΚΤ")); (RLit (u "ΌΚΤ")); (RLit (u "OΚΤ")); (RLit (u "ΝΟΈ")); (RLit (u "ΝΟΕ")); (RLit (u "ΔΕΚ")); (RLit (u "Ιαν")); (RLit (u "Ίαν")); (RLit (u "Iαν")); (RLit (u "Φεβ")); (RLit (u "Μάρ")); (RLit (u "Μαρ")); (RLit (u "Απρ")); (RLit (u "Άπρ")); (RLit (u "Aπρ")); (RLit (u "Αρίλ")); (RLit (u "Άρίλ")); (RLit (u "Aρίλ")); (RLit (u "Aριλ")); (RLit (u "Άριλ")); (RLit (u "Αριλ")); (RLit (u "Μαΐ")); (RLit (u "Μαι")); (RLit (u "Μάι")); (RLit (u "Μαϊ")); (RLit (u "Μάϊ")); (RLit (u "Ιούν")); (RLit (u "Ίούν")); (RLit (u "Ίουν")); (RLit (u "Iούν")); (RLit (u "Ιουν")); (RLit (u "Iουν")); (RLit (u "Ιούλ")); (RLit (u "Ίούλ")); (RLit (u "Ίουλ")); (RLit (u "Iούλ")); (RLit (u "Ιουλ")); (RLit (u "Iουλ")); (RLit (u "Αύγ")); (RLit (u "Αυγ")); (RLit (u "Σεπ")); (RLit (u "Οκτ")); (RLit (u "Όκτ")); (RLit (u "Oκτ")); (RLit (u "Νοέ")); (RLit (u "Νοε")); (RLit (u "Δεκ"))])); (RRep (CSet true [CRange 48 57]) 1%nat None); (RGrp 3%nat (ralts [(RRep (CSet false [CRange 48 57]) 1%nat (Some 2%nat)); (RRep (CSet false [CRange 48 57]) 4%nat (Some 4%nat))])); REnd]), 3%nat));
  ((u "ixt:date-monthname-year-el"), ((rseq [REps; (RGrp 1%nat (ralts [(RLit (u "ιαν")); (RLit (u "ίαν")); (RLit (u "φεβ")); (RLit (u "μάρ")); (RLit (u "μαρ")); (RLit (u "απρ")); (RLit (u "άπρ")); (RLit (u "αρίλ")); (RLit (u "άρίλ")); (RLit (u "αριλ")); (RLit (u "άριλ")); (RLit (u "μαΐ")); (RLit (u "μαι")); (RLit (u "μάι")); (RLit (u "μαϊ")); (RLit (u "μάϊ")); (RLit (u "ιούν")); (RLit (u "ίούν")); (RLit (u "ίουν")); (RLit (u "ιουν")); (RLit (u "ιούλ")); (RLit (u "ίούλ")); (RLit (u "ίουλ")); (RLit (u "ίουλ")); (RLit (u "ιουλ")); (RLit (u "αύγ")); (RLit (u "αυγ")); (RLit (u "σεπ")); (RLit (u "οκτ")); (RLit (u "όκτ")); (RLit (u "νοέ")); (RLit (u "νοε")); (RLit (u "δεκ")); (RLit (u "ΙΑΝ")); (RLit (u "ΊΑΝ")); (RLit (u "IΑΝ")); (RLit (u "ΦΕΒ")); (RLit (u "ΜΆΡ")); (RLit (u "ΜΑΡ")); (RLit (u "ΑΠΡ")); (RLit (u "ΆΠΡ")); (RLit (u "AΠΡ")); (RLit (u "AΡΙΛ")); (RLit (u "ΆΡΙΛ")); (RLit (u "ΑΡΙΛ")); (RLit (u "ΜΑΪ́")); (RLit (u "ΜΑΙ")); (RLit (u "ΜΆΙ")); (RLit (u "ΜΑΪ")); (RLit (u "ΜΆΪ")); (RLit (u "ΙΟΎΝ")); (RLit (u "ΊΟΎΝ")); (RLit (u "ΊΟΥΝ")); (RLit (u "IΟΎΝ")); (RLit (u "ΙΟΥΝ")); (RLit (u "IΟΥΝ")); (RLit (u "ΙΟΎΛ")); (RLit (u "ΊΟΎΛ")); (RLit (u "ΊΟΥΛ")); (RLit (u "IΟΎΛ")); (RLit (u "ΙΟΥΛ")); (RLit (u "IΟΥΛ")); (RLit (u "ΑΎΓ")); (RLit (u "ΑΥΓ")); (RLit (u "ΣΕΠ")); (RLit (u "ΟΚΤ")); (RLit (u "ΌΚΤ")); (RLit (u "OΚΤ")); (RLit (u "ΝΟΈ")); (RLit (u "ΝΟΕ")); (RLit (u "ΔΕΚ")); (RLit (u "Ιαν")); (RLit (u "Ίαν")); (RLit (u "Iαν")); (RLit (u "Φεβ")); (RLit (u "Μάρ")); (RLit (u "Μαρ")); (RLit (u "Απρ")); (RLit (u "Άπρ")); (RLit (u "Aπρ")); (RLit (u "Αρίλ")); (RLit (u "Άρίλ")); (RLit (u "Aρίλ")); (RLit (u "Aριλ")); (RLit (u "Άριλ")); (RLit (u "Αριλ")); (RLit (u "Μαΐ")); (RLit (u "Μαι")); (RLit (u "Μάι")); (RLit (u "Μαϊ")); (RLit (u "Μάϊ")); (RLit (u "Ιούν")); (RLit (u "Ίούν")); (RLit (u "Ίουν")); (RLit (u "Iούν")); (RLit (u "Ιουν")); (RLit (u "Iουν")); (RLit (u "Ιούλ")); (RLit (u "Ίούλ")); (RLit (u "Ίουλ")); (RLit (u "Iούλ")); (RLit (u "Ιουλ")); (RLit (u "Iουλ")); (RLit (u "Αύγ")); (RLit (u "Αυγ")); (RLit (u "Σεπ")); (RLit (u "Οκτ")); (RLit (u "Όκτ")); (RLit (u "Oκτ")); (RLit (u "Νοέ")); (RLit (u "Νοε")); (RLit (u "Δεκ"))])); (RRep (CSet true [CRange 48 57]) 1%nat None); (RGrp 2%nat (ralts [(RRep (CSet false [CRange 48 57]) 1%nat (Some 2%nat)); (RRep (CSet false [CRange 48 57]) 4%nat (Some 4%nat))])); REnd]), 2%nat));
  ((u "ixt:date-day-monthname-en"), ((rseq [REps; (RGrp 1%nat (RRep (CSet false [CRange 48 57]) 1%nat (Some 2%nat))); (RRep (CSet true [CRange 48 57]) 1%nat None); (RGrp 2%nat (ralts [(RLit (u "January")); (RLit (u "February")); (RLit (u "March")); (RLit (u "April")); (RLit (u "May")); (RLit (u "June")); (RLit (u "July")); (RLit (u "August")); (RLit (u "September")); (RLit (u "October")); (RLit (u "November")); (RLit (u "December")); (RLit (u "Jan")); (RLit (u "Feb")); (RLit (u "Mar")); (RLit (u "Apr")); (RLit (u "May")); (RLit (u "Jun")); (RLit (u "Jul")); (RLit (u "Aug")); (RLit (u "Sep")); (RLit (u "Oct")); (RLit (u "Nov")); (RLit (u "Dec")); (RLit (u "JAN")); (RLit (u "FEB")); (RLit (u "MAR")); (RLit (u "APR")); (RLit (u "MAY")); (RLit (u "JUN")); (RLit (u "JUL")); (RLit (u "AUG")); (RLit (u "SEP")); (RLit (u "OCT")); (RLit (u "NOV")); (RLit (u "DEC")); (RLit (u "JANUARY")); (RLit (u "FEBRUARY")); (RLit (u "MARCH")); (RLit (u "APRIL")); (RLit (u "MAY")); (RLit (u "JUNE")); (RLit (u "JULY")); (RLit (u "AUGUST")); (RLit (u "SEPTEMBER")); (RLit (u "OCTOBER")); (RLit (u "NOVEMBER")); (RLit (u "DECEMBER"))])); REnd]), 2%nat));
  ((u "ixt:date-day-monthname-year-en"), ((rseq [REps; (RGrp 1%nat (RRep (CSet false [CRange 48 57]) 1%nat (Some 2%nat))); (RRep (CSet true [CRange 48 57]) 1%nat None); (RGrp 2%nat (ralts [(RLit (u "January")); (RLit (u "February")); (RLit (u "March")); (RLit (u "April")); (RLit (u "May")); (RLit (u "June")); (RLit (u "July")); (RLit (u "August")); (RLit (u "September")); (RLit (u "October")); (RLit (u "November")); (RLit (u "December")); (RLit (u "Jan")); (RLit (u "Feb")); (RLit (u "Mar")); (RLit (u "Apr")); (RLit (u "May")); (RLit (u "Jun")); (RLit (u "Jul")); (RLit (u "Aug")); (RLit (u "Sep")); (RLit (u "Oct")); (RLit (u "Nov")); (RLit (u "Dec")); (RLit (u "JAN")); (RLit (u "FEB")); (RLit (u "MAR")); (RLit (u "APR")); (RLit (u "MAY")); (RLit (u "JUN")); (RLit (u "JUL")); (RLit (u "AUG")); (RLit (u "SEP")); (RLit (u "OCT")); (RLit (u "NOV")); (RLit (u "DEC")); (RLit (u "JANUARY")); (RLit (u "FEBRUARY")); (RLit (u "MARCH")); (RLit (u "APRIL")); (RLit (u "MAY")); (RLit (u "JUNE")); (RLit (u "JULY")); (RLit (u "AUGUST")); (RLit (u "SEPTEMBER")); (RLit (u "OCTOBER")); (RLit (u "NOVEMBER")); (RLit (u "DECEMBER"))])); (RRep (CSet true [CRange 48 57]) 1%nat None); (RGrp 3%nat (ralts [(RRep (CSet false [CRange 48 57]) 1%nat (Some 2%nat)); (RRep (CSet false [CRange 48 57]) 4%nat (Some 4%nat))])); REnd]), 3%nat));
  ((u "ixt:date-monthname-day-en"), ((rseq [REps; (RGrp 1%nat (ralts [(RLit (u "January")); (RLit (u "February")); (RLit (u "March")); (RLit (u "April")); (RLit (u "May")); (RLit (u "June")); (RLit (u "July")); (RLit (u "August")); (RLit (u "September")); (RLit (u "October")); (RLit (u "November")); (RLit (u "December")); (RLit (u "Jan")); (RLit (u "Feb")); (RLit (u "Mar")); (RLit (u "Apr")); (RLit (u "May")); (RLit (u "Jun")); (RLit (u "Jul")); (RLit (u "Aug")); (RLit (u "Sep")); (RLit (u "Oct")); (RLit (u "Nov")); (RLit (u "Dec")); (RLit (u "JAN")); (RLit (u "FEB")); (RLit (u "MAR")); (RLit (u "APR")); (RLit (u "MAY")); (RLit (u "JUN")); (RLit (u "JUL")); (RLit (u "AUG")); (RLit (u "SEP")); (RLit (u "OCT")); (RLit (u "NOV")); (RLit (u "DEC")); (RLit (u "JANUARY")); (RLit (u "FEBRUARY")); (RLit (u "MARCH")); (RLit (u "APRIL")); (RLit (u "MAY")); (RLit (u "JUNE")); (RLit (u "JULY")); (RLit (u "AUGUST")); (RLit (u "SEPTEMBER")); (RLit (u "OCTOBER")); (RLit (u "NOVEMBER")); (RLit (u "DECEMBER"))])); (RRep (CSet true [CRange 48 57]) 1%nat None); (RGrp 2%nat (RRep (CSet false [CRange 48 57]) 1%nat (Some 2%nat))); (RRep (CSet false [CRange 97 122; CRange 65 90]) 0%nat (Some 2%nat)); REnd]), 2%nat));
  ((u "ixt:date-monthname-day-year-en"), ((rseq [REps; (RGrp 1%nat (ralts [(RLit (u "January")); (RLit (u "February")); (RLit (u "March")); (RLit (u "April")); (RLit (u "May")); (RLit (u "June")); (RLit (u "July")); (RLit (u "August")); (RLit (u "September")); (RLit (u "October")); (RLit (u "November")); (RLit (u "December")); (RLit (u "Jan")); (RLit (u "Feb")); (RLit (u "Mar")); (RLit (u "Apr")); (RLit (u "May")); (RLit (u "Jun")); (RLit (u "Jul")); (RLit (u "Aug")); (RLit (u "Sep")); (RLit (u "Oct")); (RLit (u "Nov")); (RLit (u "Dec")); (RLit (u "JAN")); (RLit (u "FEB")); (RLit (u "MAR")); (RLit (u "APR")); (RLit (u "MAY")); (RLit (u "JUN")); (RLit (u "JUL")); (RLit (u "AUG")); (RLit (u "SEP")); (RLit (u "OCT")); (RLit (u "NOV")); (RLit (u "DEC")); (RLit (u "JANUARY")); (RLit (u "FEBRUARY")); (RLit (u "MARCH")); (RLit (u "APRIL")); (RLit (u "MAY")); (RLit (u "JUNE")); (RLit (u "JULY")); (RLit (u "AUGUST")); (RLit (u "SEPTEMBER")); (RLit (u "OCTOBER")); (RLit (u "NOVEMBER")); (RLit (u "DECEMBER"))])); (RRep (CSet true [CRange 48 57]) 1%nat None); (RGrp 2%nat (RRep (CSet false [CRange 48 57]) 1%nat (Some 2%nat))); (RRep (CSet true [CRange 48 57]) 1%nat None); (RGrp 3%nat (ralts [(RRep (CSet false [CRange 48 57]) 1%nat (Some 2%nat)); (RRep (CSet false [CRange 48 57]) 4%nat (Some 4%nat))])); REnd]), 3%nat));
  ((u "ixt:date-monthname-year-en"), ((rseq [REps; (RGrp 1%nat (ralts [(RLit (u "January")); (RLit (u "February")); (RLit (u "March")); (RLit (u "April")); (RLit (u "May")); (RLit (u "June")); (RLit (u "July")); (RLit (u "August")); (RLit (u "September")); (RLit (u "October")); (RLit (u "November")); (RLit (u "December")); (RLit (u "Jan")); (RLit (u "Feb")); (RLit (u "Mar")); (RLit (u "Apr")); (RLit (u "May")); (RLit (u "Jun")); (RLit (u "Jul")); (RLit (u "Aug")); (RLit (u "Sep")); (RLit (u "Oct")); (RLit (u "Nov")); (RLit (u "Dec")); (RLit (u "JAN")); (RLit (u "FEB")); (RLit (u "MAR")); (RLit (u "APR")); (RLit (u "MAY")); (RLit (u "JUN")); (RLit (u "JUL")); (RLit (u "AUG")); (RLit (u "SEP")); (RLit (u "OCT")); (RLit (u "NOV")); (RLit (u "DEC")); (RLit (u "JANUARY")); (RLit (u "FEBRUARY")); (RLit (u "MARCH")); (RLit (u "APRIL")); (RLit (u "MAY")); (RLit (u "JUNE")); (RLit (u "JULY")); (RLit (u "AUGUST")); (RLit (u "SEPTEMBER")); (RLit (u "OCTOBER")); (RLit (u "NOVEMBER")); (RLit (u "DECEMBER"))])); (RRep (CSet true [CRange 48 57]) 1%nat None); (RGrp 2%nat (ralts [(RRep (CSet false [CRange 48 57]) 1%nat (Some 2%nat)); (RRep (CSet false [CRange 48 57]) 4%nat (Some 4%nat))])); REnd]), 2%nat));
  ((u "ixt:date-year-monthname-en"), ((rseq [REps; (RGrp 1%nat (ralts [(RRep (CSet false [CRange 48 57]) 1%nat (Some 2%nat)); (RRep (CSet false [CRange 48 57]) 4%nat (Some 4%nat))])); (RRep (CSet true [CRange 48 57]) 1%nat None); (RGrp 2%nat (ralts [(RLit (u "January")); (RLit (u "February")); (RLit (u "March")); (RLit (u "April")); (RLit (u "May")); (RLit (u "June")); (RLit (u "July")); (RLit (u "August")); (RLit (u "September")); (RLit (u "October")); (RLit (u "November")); (RLit (u "December")); (RLit (u "Jan")); (RLit (u "Feb")); (RLit (u "Mar")); (RLit (u "Apr")); (RLit (u "May")); (RLit (u "Jun")); (RLit (u "Jul")); (RLit (u "Aug")); (RLit (u "Sep")); (RLit (u "Oct")); (RLit (u "Nov")); (RLit (u "Dec")); (RLit (u "JAN")); (RLit (u "FEB")); (RLit (u "MAR")); (RLit (u "APR")); (RLit (u "MAY")); (RLit (u "JUN")); (RLit (u "JUL")); (RLit (u "AUG")); (RLit (u "SEP")); (RLit (u "OCT")); (RLit (u "NOV")); (RLit (u "DEC")); (RLit (u "JANUARY")); (RLit (u "FEBRUARY")); (RLit (u "MARCH")); (RLit (u "APRIL")); (RLit (u "MAY")); (RLit (u "JUNE")); (RLit (u "JULY")); (RLit (u "AUGUST")); (RLit (u "SEPTEMBER")); (RLit (u "OCTOBER")); (RLit (u "NOVEMBER")); (RLit (u "DECEMBER"))])); REnd]), 2%nat));
  ((u "ixt:date-day-monthname-es"), ((rseq [REps; (RGrp 1%nat (RRep (CSet false [CRange 48 57]) 1%nat (Some 2%nat))); (RRep (CSet true [CRange 48 57]) 1%nat None); (RGrp 2%nat (ralts [(RLit (u "ene")); (RLit (u "feb")); (RLit (u "mar")); (RLit (u "abr")); (RLit (u "may")); (RLit (u "jun")); (RLit (u "jul")); (RLit (u "ago")); (RLit (u "sep")); (RLit (u "oct")); (RLit (u "nov")); (RLit (u "dic")); (RLit (u "ENE")); (RLit (u "FEB")); (RLit (u "MAR")); (RLit (u "ABR")); (RLit (u "MAY")); (RLit (u "JUN")); (RLit (u "JUL")); (RLit (u "AGO")); (RLit (u "SEP")); (RLit (u "OCT")); (RLit (u "NOV")); (RLit (u "DIC")); (RLit (u "Ene")); (RLit (u "Feb")); (RLit (u "Mar")); (RLit (u "Abr")); (RLit (u "May")); (RLit (u "Jun")); (RLit (u "Jul")); (RLit (u "Ago")); (RLit (u "Sep")); (RLit (u "Oct")); (RLit (u "Nov")); (RLit (u "Dic"))])); (RRep (CSet true [CRange 48 57]) 0%nat (Some 7%nat)); REnd]), 2%nat));
  ((u "ixt:date-day-monthname-year-es"), ((rseq [REps; (RGrp 1%nat (RRep (CSet false [CRange 48 57]) 1%nat (Some 2%nat))); (RRep (CSet true [CRange 48 57]) 1%nat None); (RGrp 2%nat (ralts [(RLit (u "ene")); (RLit (u "feb")); (RLit (u "mar")); (RLit (u "abr")); (RLit (u "may")); (RLit (u "jun")); (RLit (u "jul")); (RLit (u "ago")); (RLit (u "sep")); (RLit (u "oct")); (RLit (u "nov")); (RLit (u "dic")); (RLit (u "ENE")); (RLit (u "FEB")); (RLit (u "MAR")); (RLit (u "ABR")); (RLit (u "MAY")); (RLit (u "JUN")); (RLit (u "JUL")); (RLit (u "AGO")); (RLit (u "SEP")); (RLit (u "OCT")); (RLit (u "NOV")); (RLit (u "DIC")); (RLit (u "Ene")); (RLit (u "Feb")); (RLit (u "Mar")); (RLit (u "Abr")); (RLit (u "May")); (RLit (u "Jun")); (RLit (u "Jul")); (RLit (u "Ago")); (RLit (u "Sep")); (RLit (u "Oct")); (RLit (u "Nov")); (RLit (u "Dic"))])); (RRep (CSet true [CRange 48 57]) 1%nat None); (RGrp 3%nat (ralts [(RRep (CSet false [CRange 48 57]) 1%nat (Some 2%nat)); (RRep (CSet false [CRange 48 57]) 4%nat (Some 4%nat))])); REnd]), 3%nat));
  ((u "ixt:date-monthname-year-es"), ((rseq [REps; (RGrp 1%nat (ralts [(RLit (u "ene")); (RLit (u "feb")); (RLit (u "mar")); (RLit (u "abr")); (RLit (u "may")); (RLit (u "jun")); (RLit (u "jul")); (RLit (u "ago")); (RLit (u "sep")); (RLit (u "oct")); (RLit (u "nov")); (RLit (u "dic")); (RLit (u "ENE")); (RLit (u "FEB")); (RLit (u "MAR")); (RLit (u "ABR")); (RLit (u "MAY")); (RLit (u "JUN")); (RLit (u "JUL")); (RLit (u "AGO")); (RLit (u "SEP")); (RLit (u "OCT")); (RLit (u "NOV")); (RLit (u "DIC")); (RLit (u "Ene")); (RLit (u "Feb")); (RLit (u "Mar")); (RLit (u "Abr")); (RLit (u "May")); (RLit (u "Jun")); (RLit (u "Jul")); (RLit (u "Ago")); (RLit (u "Sep")); (RLit (u "Oct")); (RLit (u "Nov")); (RLit (u "Dic"))])); (RRep (CSet true [CRange 48 57]) 1%nat None); (RGrp 2%nat (ralts [(RRep (CSet false [CRange 48 57]) 1%nat (Some 2%nat)); (RRep (CSet false [CRange 48 57]) 4%nat (Some 4%nat))])); REnd]), 2%nat));
  ((u "ixt:date-day-monthname-et"), ((rseq [REps; (RGrp 1%nat (RRep (CSet false [CRange 48 57]) 1%nat (Some 2%nat))); (RRep (CSet true [CRange 48 57]) 1%nat None); (RGrp 2%nat (ralts [(RLit (u "jaan")); (RLit (u "veebr")); (RLit (u "märts")); (RLit (u "marts")); (RLit (u "apr")); (RLit (u "mai")); (RLit (u "juuni")); (RLit (u "juuli")); (RLit (u "aug")); (RLit (u "sept")); (RLit (u "okt")); (RLit (u "nov")); (RLit (u "dets")); (RLit (u "JAAN")); (RLit (u "VEEBR")); (RLit (u "MÄRTS")); (RLit (u "MARTS")); (RLit (u "APR")); (RLit (u "MAI")); (RLit (u "JUUNI")); (RLit (u "JUULI")); (RLit (u "AUG")); (RLit (u "SEPT")); (RLit (u "OKT")); (RLit (u "NOV")); (RLit (u "DETS")); (RLit (u "Jaan")); (RLit (u "Veebr")); (RLit (u "Märts")); (RLit (u "Marts")); (RLit (u "Apr")); (RLit (u "Mai")); (RLit (u "Juuni")); (RLit (u "Juuli")); (RLit (u "Aug")); (RLit (u "Sept")); (RLit (u "Okt")); (RLit (u "Nov")); (RLit (u "Dets"))])); (RRep (CSet true [CRange 48 57]) 0%nat (Some 5%nat)); REnd]), 2%nat));
  ((u "ixt:date-day-monthname-year-et"), ((rseq [REps; (RGrp 1%nat (RRep (CSet false [CRange 48 57]) 1%nat (Some 2%nat))); (RRep (CSet true [CRange 48 57]) 1%nat None); (RGrp 2%nat (ralts [(RLit (u "jaan")); (RLit (u "veebr")); (RLit (u "märts")); (RLit (u "marts")); (RLit (u "apr")); (RLit (u "mai")); (RLit (u "juuni")); (RLit (u "juuli")); (RLit (u "aug")); (RLit (u "sept")); (RLit (u "okt")); (RLit (u "nov")); (RLit (u "dets")); (RLit (u "JAAN")); (RLit (u "VEEBR")); (RLit (u "MÄRTS")); (RLit (u "MARTS")); (RLit (u "APR")); (RLit (u "MAI")); (RLit (u "JUUNI")); (RLit (u "JUULI")); (RLit (u "AUG")); (RLit (u "SEPT")); (RLit (u "OKT")); (RLit (u "NOV")); (RLit (u "DETS")); (RLit (u "Jaan")); (RLit (u "Veebr")); (RLit (u "Märts")); (RLit (u "Marts")); (RLit (u "Apr")); (RLit (u "Mai")); (RLit (u "Juuni")); (RLit (u "Juuli")); (RLit (u "Aug")); (RLit (u "Sept")); (RLit (u "Okt")); (RLit (u "Nov")); (RLit (u "Dets"))])); (RRep (CSet true [CRange 48 57]) 1%nat None); (RGrp 3%nat (ralts [(RRep (CSet false [CRange 48 57]) 1%nat (Some 2%nat)); (RRep (CSet false [CRange 48 57]) 4%nat (Some 4%nat))])); REnd]), 3%nat));
  ((u "ixt:date-monthname-year-et"), ((rseq [REps; (RGrp 1%nat (ralts [(RLit (u "jaan")); (RLit (u "veebr")); (RLit (u "märts")); (RLit (u "marts")); (RLit (u "apr")); (RLit (u "mai")); (RLit (u "juuni")); (RLit (u "juuli")); (RLit (u "aug")); (RLit (u "sept")); (RLit (u "okt")); (RLit (u "nov")); (RLit (u "dets")); (RLit (u "JAAN")); (RLit (u "VEEBR")); (RLit (u "MÄRTS")); (RLit (u "MARTS")); (RLit (u "APR")); (RLit (u "MAI")); (RLit (u "JUUNI")); (RLit (u "JUULI")); (RLit (u "AUG")); (RLit (u "SEPT")); (RLit (u "OKT")); (RLit (u "NOV")); (RLit (u "DETS")); (RLit (u "Jaan")); (RLit (u "Veebr")); (RLit (u "Märts")); (RLit (u "Marts")); (RLit (u "Apr")); (RLit (u "Mai")); (RLit (u "Juuni")); (RLit (u "Juuli")); (RLit (u "Aug")); (RLit (u "Sept")); (RLit (u "Okt")); (RLit (u "Nov")); (RLit (u "Dets"))])); (RRep (CSet true [CRange 48 57]) 1%nat None); (RGrp 2%nat (ralts [(RRep (CSet false [CRange 48 57]) 1%nat (Some 2%nat)); (RRep (CSet false [CRange 48 57]) 4%nat (Some 4%nat))])); REnd]), 2%nat));
  ((u "ixt:date-day-monthname-fi"), ((rseq [REps; (RGrp 1%nat (RRep (CSet false [CRange 48 57]) 1%nat (Some 2%nat))); (RRep (CSet true [CRange 48 57]) 0%nat None); (RRep (CSet true [CRange 48 57; CRange 97 122; CRange 65 90]) 1%nat None); (RGrp 2%nat (ralts [(RLit (u "tam")); (RLit (u "hel")); (RLit (u "maa")); (RLit (u "huh")); (RLit (u "tou")); (RLit (u "kes")); (RLit (u "hei")); (RLit (u "elo")); (RLit (u "syy")); (RLit (u "lok")); (RLit (u "mar")); (RLit (u "jou")); (RLit (u "TAM")); (RLit (u "HEL")); (RLit (u "MAA")); (RLit (u "HUH")); (RLit (u "TOU")); (RLit (u "KES")); (RLit (u "HEI")); (RLit (u "ELO")); (RLit (u "SYY")); (RLit (u "LOK")); (RLit (u "MAR")); (RLit (u "JOU")); (RLit (u "Tam")); (RLit (u "Hel")); (RLit (u "Maa")); (RLit (u "Huh")); (RLit (u "Tou")); (RLit (u "Kes")); (RLit (u "Hei")); (RLit (u "Elo")); (RLit (u "Syy")); (RLit (u "Lok")); (RLit (u "Mar")); (RLit (u "Jou"))])); (RRep (CSet true [CRange 48 57]) 0%nat (Some 8%nat)); REnd]), 2%nat));
  ((u "ixt:date-day-monthname-year-fi"), ((rseq [REps; (RGrp 1%nat (RRep (CSet false [CRange 48 57]) 1%nat (Some 2%nat))); (RRep (CSet true [CRange 48 57]) 0%nat None); (RRep (CSet true [CRange 48 57; CRange 97 122; CRange 65 90]) 1%nat None); (RGrp 2%nat (ralts [(RLit (u "tam")); (RLit (u "hel")); (RLit (u "maa")); (RLit (u "huh")); (RLit (u "tou")); (RLit (u "kes")); (RLit (u "hei")); (RLit (u "elo")); (RLit (u "syy")); (RLit (u "lok")); (RLit (u "mar")); (RLit (u "jou")); (RLit (u "TAM")); (RLit (u "HEL")); (RLit (u "MAA")); (RLit (u "HUH")); (RLit (u "TOU")); (RLit (u "KES")); (RLit (u "HEI")); (RLit (u "ELO")); (RLit (u "SYY")); (RLit (u "LOK")); (RLit (u "MAR")); (RLit (u "JOU")); (RLit (u "Tam")); (RLit (u "Hel")); (RLit (u "Maa")); (RLit (u "Huh")); (RLit (u "Tou")); (RLit (u "Kes")); (RLit (u "Hei")); (RLit (u "Elo")); (RLit (u "Syy")); (RLit (u "Lok")); (RLit (u "Mar")); (RLit (u "Jou"))])); (RRep (CSet true [CRange 48 57]) 1%nat None); (RGrp 3%nat (ralts [(RRep (CSet false [CRange 48 57]) 1%nat (Some 2%nat)); (RRep (CSet false [CRange 48 57]) 4%nat (Some 4%nat))])); REnd]), 3%nat));
  ((u "ixt:date-monthname-year-fi"), ((rseq [REps; (RGrp 1%nat (ralts [(RLit (u "tam")); (RLit (u "hel")); (RLit (u "maa")); (RLit (u "huh")); (RLit (u "tou")); (RLit (u "kes")); (RLit (u "hei")); (RLit (u "elo")); (RLit (u "syy")); (RLit (u "lok")); (RLit (u "mar")); (RLit (u "jou")); (RLit (u "TAM")); (RLit (u "HEL")); (RLit (u "MAA")); (RLit (u "HUH")); (RLit (u "TOU")); (RLit (u "KES")); (RLit (u "HEI")); (RLit (u "ELO")); (RLit (u "SYY")); (RLit (u "LOK")); (RLit (u "MAR")); (RLit (u "JOU")); (RLit (u "Tam")); (RLit (u "Hel")); (RLit (u "Maa")); (RLit (u "Huh")); (RLit (u "Tou")); (RLit (u "Kes")); (RLit (u "Hei")); (RLit (u "Elo")); (RLit (u "Syy")); (RLit (u "Lok")); (RLit (u "Mar")); (RLit (u "Jou"))])); (RRep (CSet true [CRange 48 57]) 1%nat None); (RGrp 2%nat (ralts [(RRep (CSet false [CRange 48 57]) 1%nat (Some 2%nat)); (RRep (CSet false [CRange 48 57]) 4%nat (Some 4%nat))])); REnd]), 2%nat));
  ((u "ixt:date-day-monthname-fr"), ((rseq [REps; (RGrp 1%nat (RRep (CSet false [CRange 48 57]) 1%nat (Some 2%nat))); (RRep (CSet true [CRange 48 57]) 1%nat None); (RGrp 2%nat (ralts [(RLit (u "janv")); (RLit (u "févr")); (RLit (u "fevr")); (RLit (u "mars")); (RLit (u "avr")); (RLit (u "mai")); (RLit (u "juin")); (RLit (u "juil")); (RLit (u "août")); (RLit (u "aout")); (RLit (u "sept")); (RLit (u "oct")); (RLit (u "nov")); (RLit (u "déc")); (RLit (u "dec")); (RLit (u "JANV")); (RLit (u "FÉVR")); (RLit (u "FEVR")); (RLit (u "MARS")); (RLit (u "AVR")); (RLit (u "MAI")); (RLit (u "JUIN")); (RLit (u "JUIL")); (RLit (u "AOÛT")); (RLit (u "AOUT")); (RLit (u "SEPT")); (RLit (u "OCT")); (RLit (u "NOV")); (RLit (u "DÉC")); (RLit (u "DEC")); (RLit (u "Janv")); (RLit (u "Févr")); (RLit (u "Fevr")); (RLit (u "Mars")); (RLit (u "Avr")); (RLit (u "Mai")); (RLit (u "Juin")); (RLit (u "Juil")); (RLit (u "Août")); (RLit (u "Aout")); (RLit (u "Sept")); (RLit (u "Oct")); (RLit (u "Nov")); (RLit (u "Déc")); (RLit (u "Dec"))])); (RRep (CSet true [CRange 48 57]) 0%nat (Some 5%nat)); REnd]), 2%nat));
  ((u "ixt:date-day-monthname-year-fr"), ((rseq [REps; (RGrp 1%nat (RRep (CSet false [CRange 48 57]) 1%nat (Some 2%nat))); (RRep (CSet true [CRange 48 57]) 1%nat None); (RGrp 2%nat (ralts [(RLit (u "janv")); (RLit (u "févr")); (RLit (u "fevr")); (RLit (u "mars")); (RLit (u "avr")); (RLit (u "mai")); (RLit (u "juin")); (RLit (u "juil")); (RLit (u "août")); (RLit (u "aout")); (RLit (u "sept")); (RLit (u "oct")); (RLit (u "nov")); (RLit (u "déc")); (RLit (u "dec")); (RLit (u "JANV")); (RLit (u "FÉVR")); (RLit (u "FEVR")); (RLit (u "MARS")); (RLit (u "AVR")); (RLit (u "MAI")); (RLit (u "JUIN")); (RLit (u "JUIL")); (RLit (u "AOÛT")); (RLit (u "AOUT")); (RLit (u "SEPT")); (RLit (u "OCT")); (RLit (u "NOV")); (RLit (u "DÉC")); (RLit (u "DEC")); (RLit (u "Janv")); (RLit (u "Févr")); (RLit (u "Fevr")); (RLit (u "Mars")); (RLit (u "Avr")); (RLit (u "Mai")); (RLit (u "Juin")); (RLit (u "Juil")); (RLit (u "Août")); (RLit (u "Aout")); (RLit (u "Sept")); (RLit (u "Oct")); (RLit (u "Nov")); (RLit (u "Déc")); (RLit (u "Dec"))])); (RRep (CSet true [CRange 48 57]) 1%nat None); (RGrp 3%nat (ralts [(RRep (CSet false [CRange 48 57]) 1%nat (Some 2%nat)); (RRep (CSet false [CRange 48 57]) 4%nat (Some 4%nat))])); REnd]), 3%nat));
  ((u "ixt:date-monthname-year-fr"), ((rseq [REps; (RGrp 1%nat (ralts [(RLit (u "janv")); (RLit (u "févr")); (RLit (u "fevr")); (RLit (u "mars")); (RLit (u "avr")); (RLit (u "mai")); (RLit (u "juin")); (RLit (u "juil")); (RLit (u "août")); (RLit (u "aout")); (RLit (u "sept")); (RLit (u "oct")); (RLit (u "nov")); (RLit (u "déc")); (RLit (u "dec")); (RLit (u "JANV")); (RLit (u "FÉVR")); (RLit (u "FEVR")); (RLit (u "MARS")); (RLit (u "AVR")); (RLit (u "MAI")); (RLit (u "JUIN")); (RLit (u "JUIL")); (RLit (u "AOÛT")); (RLit (u "AOUT")); (RLit (u "SEPT")); (RLit (u "OCT")); (RLit (u "NOV")); (RLit (u "DÉC")); (RLit (u "DEC")); (RLit (u "Janv")); (RLit (u "Févr")); (RLit (u "Fevr")); (RLit (u "Mars")); (RLit (u "Avr")); (RLit (u "Mai")); (RLit (u "Juin")); (RLit (u "Juil")); (RLit (u "Août")); (RLit (u "Aout")); (RLit (u "Sept")); (RLit (u "Oct")); (RLit (u "Nov")); (RLit (u "Déc")); (RLit (u "Dec"))])); (RRep (CSet true [CRange 48 57]) 1%nat None); (RGrp 2%nat (ralts [(RRep (CSet false [CRange 48 57]) 1%nat (Some 2%nat)); (RRep (CSet false [CRange 48 57]) 4%nat (Some 4%nat))])); REnd]), 2%nat));
  ((u "ixt:date-day-monthname-hr"), ((rseq [REps; (RGrp 1%nat (RRep (CSet false [CRange 48 57]) 1%nat (Some 2%nat))); (RRep (CSet true [CRange 48 57]) 1%nat None); (RGrp 2%nat (ralts [(RLit (u "sij")); (RLit (u "velj")); (RLit (u "ožu")); (RLit (u "ozu")); (RLit (u "tra")); (RLit (u "svi")); (RLit (u "lip")); (RLit (u "srp")); (RLit (u "kol")); (RLit (u "ruj")); (RLit (u "lis")); (RLit (u "stu")); (RLit (u "pro")); (RLit (u "SIJ")); (RLit (u "VELJ")); (RLit (u "OŽU")); (RLit (u "OZU")); (RLit (u "TRA")); (RLit (u "SVI")); (RLit (u "LIP")); (RLit (u "SRP")); (RLit (u "KOL")); (RLit (u "RUJ")); (RLit (u "LIS")); (RLit (u "STU")); (RLit (u "PRO")); (RLit (u "Sij")); (RLit (u "Velj")); (RLit (u "Ožu")); (RLit (u "Ozu")); (RLit (u "Tra")); (RLit (u "Svi")); (RLit (u "Lip")); (RLit (u "Srp")); (RLit (u "Kol")); (RLit (u "Ruj")); (RLit (u "Lis")); (RLit (u "Stu")); (RLit (u "Pro"))])); (RRep (CSet true [CRange 48 57]) 0%nat (Some 6%nat)); REnd]), 2%nat));
  ((u "ixt:date-day-monthname-year-hr"), ((rseq [REps; (RGrp 1%nat (RRep (CSet false [CRange 48 57]) 1%nat (Some 2%nat))); (RRep (CSet true [CRange 48 57]) 1%nat None); (RGrp 2%nat (ralts [(RLit (u "sij")); (RLit (u "velj")); (RLit (u "ožu")); (RLit (u "ozu")); (RLit (u "tra")); (RLit (u "svi")); (RLit (u "lip")); (RLit (u "srp")); (RLit (u "kol")); (RLit (u "ruj")); (RLit (u "lis")); (RLit (u "stu")); (RLit (u "pro")); (RLit (u "SIJ")); (RLit (u "VELJ")); (RLit (u "OŽU")); (RLit (u "OZU")); (RLit (u "TRA")); (RLit (u "SVI")); (RLit (u "LIP")); (RLit (u "SRP")); (RLit (u "KOL")); (RLit (u "RUJ")); (RLit (u "LIS")); (RLit (u "STU")); (RLit (u "PRO")); (RLit (u "Sij")); (RLit (u "Velj")); (RLit (u "Ožu")); (RLit (u "Ozu")); (RLit (u "Tra")); (RLit (u "Svi")); (RLit (u "Lip")); (RLit (u "Srp")); (RLit (u "Kol")); (RLit (u "Ruj")); (RLit (u "Lis")); (RLit (u "Stu")); (RLit (u "Pro"))])); (RRep (CSet true [CRange 48 57]) 1%nat None); (RGrp 3%nat (ralts [(RRep (CSet false [CRange 48 57]) 1%nat (Some 2%nat)); (RRep (CSet false [CRange 48 57]) 4%nat (Some 4%nat))])); REnd]), 3%nat));
  ((u "ixt:date-monthname-year-hr"), ((rseq [REps; (RGrp 1%nat (ralts [(RLit (u "sij")); (RLit (u "velj")); (RLit (u "ožu")); (RLit (u "ozu")); (RLit (u "tra")); (RLit (u "svi")); (RLit (u "lip")); (RLit (u "srp")); (RLit (u "kol")); (RLit (u "ruj")); (RLit (u "lis")); (RLit (u "stu")); (RLit (u "pro")); (RLit (u "SIJ")); (RLit (u "VELJ")); (RLit (u "OŽU")); (RLit (u "OZU")); (RLit (u "TRA")); (RLit (u "SVI")); (RLit (u "LIP")); (RLit (u "SRP")); (RLit (u "KOL")); (RLit (u "RUJ")); (RLit (u "LIS")); (RLit (u "STU")); (RLit (u "PRO")); (RLit (u "Sij")); (RLit (u "Velj")); (RLit (u "Ožu")); (RLit (u "Ozu")); (RLit (u "Tra")); (RLit (u "Svi")); (RLit (u "Lip")); (RLit (u "Srp")); (RLit (u "Kol")); (RLit (u "Ruj")); (RLit (u "Lis")); (RLit (u "Stu")); (RLit (u "Pro"))])); (RRep (CSet true [CRange 48 57]) 1%nat None); (RGrp 2%nat (ralts [(RRep (CSet false [CRange 48 57]) 1%nat (Some 2%nat)); (RRep (CSet false [CRange 48 57]) 4%nat (Some 4%nat))])); REnd]), 2%nat));
  ((u "ixt:date-day-monthroman"), ((rseq [REps; (RGrp 1%nat (RRep (CSet false [CRange 48 57]) 1%nat (Some 2%nat))); (RRep (CSet true [CRange 48 57]) 0%nat None); (RChar (CSet true [CRange 88 88; CRange 86 86; CRange 73 73; CRange 120 120; CRange 118 118; CRange 105 105])); (RGrp 2%nat (ralts [(RGrp 3%nat (rseq [(RRep (CSet false [CRange 73 73]) 0%nat (Some 1%nat)); (RGrp 4%nat (ralts [(RLit (u "X")); (RLit (u "V")); (RLit (u "I"))])); (RRep (CSet false [CRange 73 73]) 0%nat (Some 3%nat))])); (RGrp 5%nat (rseq [(RRep (CSet false [CRange 105 105]) 0%nat (Some 1%nat)); (RGrp 6%nat (ralts [(RLit (u "x")); (RLit (u "v")); (RLit (u "i"))])); (RRep (CSet false [CRange 105 105]) 0%nat (Some 3%nat))]))])); REnd]), 6%nat));
  ((u "ixt:date-day-monthroman-year"), ((rseq [REps; (RGrp 1%nat (RRep (CSet false [CRange 48 57]) 1%nat (Some 2%nat))); (RRep (CSet true [CRange 48 57]) 0%nat None); (RChar (CSet true [CRange 88 88; CRange 86 86; CRange 73 73; CRange 120 120; CRange 118 118; CRange 105 105])); (RGrp 2%nat (ralts [(RGrp 3%nat (rseq [(RRep (CSet false [CRange 73 73]) 0%nat (Some 1%nat)); (RGrp 4%nat (ralts [(RLit (u "X")); (RLit (u "V")); (RLit (u "I"))])); (RRep (CSet false [CRange 73 73]) 0%nat (Some 3%nat))])); (RGrp 5%nat (rseq [(RRep (CSet false [CRange 105 105]) 0%nat (Some 1%nat)); (RGrp 6%nat (ralts [(RLit (u "x")); (RLit (u "v")); (RLit (u "i"))])); (RRep (CSet false [CRange 105 105]) 0%nat (Some 3%nat))]))])); (RChar (CSet true [CRange 88 88; CRange 86 86; CRange 73 73; CRange 120 120; CRange 118 118; CRange 105 105])); (RRep (CSet true [CRange 48 57]) 0%nat None); (RGrp 7%nat (ralts [(RRep (CSet false [CRange 48 57]) 1%nat (Some 2%nat)); (RRep (CSet false [CRange 48 57]) 4%nat (Some 4%nat))])); REnd]), 7%nat));
  ((u "ixt:date-monthroman-year"), ((rseq [REps; (RGrp 1%nat (ralts [(RGrp 2%nat (rseq [(RRep (CSet false [CRange 73 73]) 0%nat (Some 1%nat)); (RGrp 3%nat (ralts [(RLit (u "X")); (RLit (u "V")); (RLit (u "I"))])); (RRep (CSet false [CRange 73 73]) 0%nat (Some 3%nat))])); (RGrp 4%nat (rseq [(RRep (CSet false [CRange 105 105]) 0%nat (Some 1%nat)); (RGrp 5%nat (ralts [(RLit (u "x")); (RLit (u "v")); (RLit (u "i"))])); (RRep (CSet false [CRange 105 105]) 0%nat (Some 3%nat))]))])); (RChar (CSet true [CRange 88 88; CRange 86 86; CRange 73 73; CRange 120 120; CRange 118 118; CRange 105 105])); (RRep (CSet true [CRange 48 57]) 0%nat None); (RGrp 6%nat (ralts [(RRep (CSet false [CRange 48 57]) 1%nat (Some 2%nat)); (RRep (CSet false [CRange 48 57]) 4%nat (Some 4%nat))])); REnd]), 6%nat));
  ((u "ixt:date-day-monthname-it"), ((rseq [REps; (RGrp 1%nat (RRep (CSet false [CRange 48 57]) 1%nat (Some 2%nat))); (RRep (CSet true [CRange 48 57]) 1%nat None); (RGrp 2%nat (ralts [(RLit (u "gen")); (RLit (u "feb")); (RLit (u "mar")); (RLit (u "apr")); (RLit (u "mag")); (RLit (u "giu")); (RLit (u "lug")); (RLit (u "ago")); (RLit (u "set")); (RLit (u "ott")); (RLit (u "nov")); (RLit (u "dic")); (RLit (u "GEN")); (RLit (u "FEB")); (RLit (u "MAR")); (RLit (u "APR")); (RLit (u "MAG")); (RLit (u "GIU")); (RLit (u "LUG")); (RLit (u "AGO")); (RLit (u "SET")); (RLit (u "OTT")); (RLit (u "NOV")); (RLit (u "DIC")); (RLit (u "Gen")); (RLit (u "Feb")); (RLit (u "Mar")); (RLit (u "Apr")); (RLit (u "Mag")); (RLit (u "Giu")); (RLit (u "Lug")); (RLit (u "Ago")); (RLit (u "Set")); (RLit (u "Ott")); (RLit (u "Nov")); (RLit (u "Dic"))])); (RRep (CSet true [CRange 48 57]) 0%nat (Some 6%nat)); REnd]), 2%nat));
  ((u "ixt:date-day-monthname-year-it"), ((rseq [REps; (RGrp 1%nat (RRep (CSet false [CRange 48 57]) 1%nat (Some 2%nat))); (RRep (CSet true [CRange 48 57]) 1%nat None); (RGrp 2%nat (ralts [(RLit (u "gen")); (RLit (u "feb")); (RLit (u "mar")); (RLit (u "apr")); (RLit (u "mag")); (RLit (u "giu")); (RLit (u "lug")); (RLit (u "ago")); (RLit (u "set")); (RLit (u "ott")); (RLit (u "nov")); (RLit (u "dic")); (RLit (u "GEN")); (RLit (u "FEB")); (RLit (u "MAR")); (RLit (u "APR")); (RLit (u "MAG")); (RLit (u "GIU")); (RLit (u "LUG")); (RLit (u "AGO")); (RLit (u "SET")); (RLit (u "OTT")); (RLit (u "NOV")); (RLit (u "DIC")); (RLit (u "Gen")); (RLit (u "Feb")); (RLit (u "Mar")); (RLit (u "Apr")); (RLit (u "Mag")); (RLit (u "Giu")); (RLit (u "Lug")); (RLit (u "Ago")); (RLit (u "Set")); (RLit (u "Ott")); (RLit (u "Nov")); (RLit (u "Dic"))])); (RRep (CSet true [CRange 48 57]) 1%nat None); (RGrp 3%nat (ralts [(RRep (CSet false [CRange 48 57]) 1%nat (Some 2%nat)); (RRep (CSet false [CRange 48 57]) 4%nat (Some 4%nat))])); REnd]), 3%nat));
  ((u "ixt:date-monthname-year-it"), ((rseq [REps; (RGrp 1%nat (ralts [(RLit (u "gen")); (RLit (u "feb")); (RLit (u "mar")); (RLit (u "apr")); (RLit (u "mag")); (RLit (u "giu")); (RLit (u "lug")); (RLit (u "ago")); (RLit (u "set")); (RLit (u "ott")); (RLit (u "nov")); (RLit (u "dic")); (RLit (u "GEN")); (RLit (u "FEB")); (RLit (u "MAR")); (RLit (u "APR")); (RLit (u "MAG")); (RLit (u "GIU")); (RLit (u "LUG")); (RLit (u "AGO")); (RLit (u "SET")); (RLit (u "OTT")); (RLit (u "NOV")); (RLit (u "DIC")); (RLit (u "Gen")); (RLit (u "Feb")); (RLit (u "Mar")); (RLit (u "Apr")); (RLit (u "Mag")); (RLit (u "Giu")); (RLit (u "Lug")); (RLit (u "Ago")); (RLit (u "Set")); (RLit (u "Ott")); (RLit (u "Nov")); (RLit (u "Dic"))])); (RRep (CSet true [CRange 48 57]) 1%nat None); (RGrp 2%nat (ralts [(RRep (CSet false [CRange 48 57]) 1%nat (Some 2%nat)); (RRep (CSet false [CRange 48 57]) 4%nat (Some 4%nat))])); REnd]), 2%nat));
  ((u "ixt:date-day-monthname-nl"), ((rseq [REps; (RGrp 1%nat (RRep (CSet false [CRange 48 57]) 1%nat (Some 2%nat))); (RRep (CSet true [CRange 48 57]) 1%nat None); (RGrp 2%nat (ralts [(RLit (u "jan")); (RLit (u "feb")); (RLit (u "maa")); (RLit (u "mrt")); (RLit (u "apr")); (RLit (u "mei")); (RLit (u "jun")); (RLit (u "jul")); (RLit (u "aug")); (RLit (u "sep")); (RLit (u "okt")); (RLit (u "nov")); (RLit (u "dec")); (RLit (u "JAN")); (RLit (u "FEB")); (RLit (u "MAA")); (RLit (u "MRT")); (RLit (u "APR")); (RLit (u "MEI")); (RLit (u "JUN")); (RLit (u "JUL")); (RLit (u "AUG")); (RLit (u "SEP")); (RLit (u "OKT")); (RLit (u "NOV")); (RLit (u "DEC")); (RLit (u "Jan")); (RLit (u "Feb")); (RLit (u "Maa")); (RLit (u "Mrt")); (RLit (u "Apr")); (RLit (u "Mei")); (RLit (u "Jun")); (RLit (u "Jul")); (RLit (u "Aug")); (RLit (u "Sep")); (RLit (u "Okt")); (RLit (u "Nov")); (RLit (u "Dec"))])); (RRep (CSet true [CRange 48 57]) 0%nat (Some 6%nat)); REnd]), 2%nat));
  ((u "ixt:date-day-monthname-year-nl"), ((rseq [REps; (RGrp 1%nat (RRep (CSet false [CRange 48 57]) 1%nat (Some 2%nat))); (RRep (CSet true [CRange 48 57]) 1%nat None); (RGrp 2%nat (ralts [(RLit (u "jan")); (RLit (u "feb")); (RLit (u "maa")); (RLit (u "mrt")); (RLit (u "apr")); (RLit (u "mei")); (RLit (u "jun")); (RLit (u "jul")); (RLit (u "aug")); (RLit (u "sep")); (RLit (u "okt")); (RLit (u "nov")); (RLit (u "dec")); (RLit (u "JAN")); (RLit (u "FEB")); (RLit (u "MAA")); (RLit (u "MRT")); (RLit (u "APR")); (RLit (u "MEI")); (RLit (u "JUN")); (RLit (u "JUL")); (RLit (u "AUG")); (RLit (u "SEP")); (RLit (u "OKT")); (RLit (u "NOV")); (RLit (u "DEC")); (RLit (u "Jan")); (RLit (u "Feb")); (RLit (u "Maa")); (RLit (u "Mrt")); (RLit (u "Apr")); (RLit (u "Mei")); (RLit (u "Jun")); (RLit (u "Jul")); (RLit (u "Aug")); (RLit (u "Sep")); (RLit (u "Okt")); (RLit (u "Nov")); (RLit (u "Dec"))])); (RRep (CSet true [CRange 48 57]) 1%nat None); (RGrp 3%nat (ralts [(RRep (CSet false [CRange 48 57]) 1%nat (Some 2%nat)); (RRep (CSet false [CRange 48 57]) 4%nat (Some 4%nat))])); REnd]), 3%nat));
  ((u "ixt:date-monthname-year-nl"), ((rseq [REps; (RGrp 1%nat (ralts [(RLit (u "jan")); (RLit (u "feb")); (RLit (u "maa")); (RLit (u "mrt")); (RLit (u "apr")); (RLit (u "mei")); (RLit (u "jun")); (RLit (u "jul")); (RLit (u "aug")); (RLit (u "sep")); (RLit (u "okt")); (RLit (u "nov")); (RLit (u "dec")); (RLit (u "JAN")); (RLit (u "FEB")); (RLit (u "MAA")); (RLit (u "MRT")); (RLit (u "APR")); (RLit (u "MEI")); (RLit (u "JUN")); (RLit (u "JUL")); (RLit (u "AUG")); (RLit (u "SEP")); (RLit (u "OKT")); (RLit (u "NOV")); (RLit (u "DEC")); (RLit (u "Jan")); (RLit (u "Feb")); (RLit (u "Maa")); (RLit (u "Mrt")); (RLit (u "Apr")); (RLit (u "Mei")); (RLit (u "Jun")); (RLit (u "Jul")); (RLit (u "Aug")); (RLit (u "Sep")); (RLit (u "Okt")); (RLit (u "Nov")); (RLit (u "Dec"))])); (RRep (CSet true [CRange 48 57]) 1%nat None); (RGrp 2%nat (ralts [(RRep (CSet false [CRange 48 57]) 1%nat (Some 2%nat)); (RRep (CSet false [CRange 48 57]) 4%nat (Some 4%nat))])); REnd]), 2%nat));
  ((u "ixt:date-monthname-day-hu"), ((rseq [REps; (RGrp 1%nat (ralts [(RLit (u "jan")); (RLit (u "feb")); (RLit (u "márc")); (RLit (u "marc")); (RLit (u "ápr")); (RLit (u "apr")); (RLit (u "máj")); (RLit (u "maj")); (RLit (u "jún")); (RLit (u "jun")); (RLit (u "júl")); (RLit (u "jul")); (RLit (u "aug")); (RLit (u "szept")); (RLit (u "okt")); (RLit (u "nov")); (RLit (u "dec")); (RLit (u "JAN")); (RLit (u "FEB")); (RLit (u "MÁRC")); (RLit (u "MARC")); (RLit (u "ÁPR")); (RLit (u "APR")); (RLit (u "MÁJ")); (RLit (u "MAJ")); (RLit (u "JÚN")); (RLit (u "JUN")); (RLit (u "JÚL")); (RLit (u "JUL")); (RLit (u "AUG")); (RLit (u "SZEPT")); (RLit (u "OKT")); (RLit (u "NOV")); (RLit (u "DEC")); (RLit (u "Jan")); (RLit (u "Feb")); (RLit (u "Márc")); (RLit (u "Marc")); (RLit (u "Ápr")); (RLit (u "Apr")); (RLit (u "Máj")); (RLit (u "Maj")); (RLit (u "Jún")); (RLit (u "Jun")); (RLit (u "Júl")); (RLit (u "Jul")); (RLit (u "Aug")); (RLit (u "Szept")); (RLit (u "Okt")); (RLit (u "Nov")); (RLit (u "Dec"))])); (RRep (CSet true [CRange 48 57]) 0%nat (Some 7%nat)); (RRep (CSet true [CRange 48 57]) 1%nat None); (RGrp 2%nat (RRep (CSet false [CRange 48 57]) 1%nat (Some 2%nat))); REnd]), 2%nat));
  ((u "ixt:date-year-monthname-day-hu"), ((rseq [REps; (RGrp 1%nat (ralts [(RRep (CSet false [CRange 48 57]) 1%nat (Some 2%nat)); (RRep (CSet false [CRange 48 57]) 4%nat (Some 4%nat))])); (RRep (CSet true [CRange 48 57]) 1%nat None); (RGrp 2%nat (ralts [(RLit (u "jan")); (RLit (u "feb")); (RLit (u "márc")); (RLit (u "marc")); (RLit (u "ápr")); (RLit (u "apr")); (RLit (u "máj")); (RLit (u "maj")); (RLit (u "jún")); (RLit (u "jun")); (RLit (u "júl")); (RLit (u "jul")); (RLit (u "aug")); (RLit (u "szept")); (RLit (u "okt")); (RLit (u "nov")); (RLit (u "dec")); (RLit (u "JAN")); (RLit (u "FEB")); (RLit (u "MÁRC")); (RLit (u "MARC")); (RLit (u "ÁPR")); (RLit (u "APR")); (RLit (u "MÁJ")); (RLit (u "MAJ")); (RLit (u "JÚN")); (RLit (u "JUN")); (RLit (u "JÚL")); (RLit (u "JUL")); (RLit (u "AUG")); (RLit (u "SZEPT")); (RLit (u "OKT")); (RLit (u "NOV")); (RLit (u "DEC")); (RLit (u "Jan")); (RLit (u "Feb")); (RLit (u "Márc")); (RLit (u "Marc")); (RLit (u "Ápr")); (RLit (u "Apr")); (RLit (u "Máj")); (RLit (u "Maj")); (RLit (u "Jún")); (RLit (u "Jun")); (RLit (u "Júl")); (RLit (u "Jul")); (RLit (u "Aug")); (RLit (u "Szept")); (RLit (u "Okt")); (RLit (u "Nov")); (RLit (u "Dec"))])); (RRep (CSet true [CRange 48 57]) 1%nat None); (RGrp 3%nat (RRep (CSet false [CRange 48 57]) 1%nat (Some 2%nat))); REnd]), 3%nat));
  ((u "ixt:date-year-monthname-hu"), ((rseq [REps; (RGrp 1%nat (ralts [(RRep (CSet false [CRange 48 57]) 1%nat (Some 2%nat)); (RRep (CSet false [CRange 48 57]) 4%nat (Some 4%nat))])); (RRep (CSet true [CRange 48 57]) 1%nat None); (RGrp 2%nat (ralts [(RLit (u "jan")); (RLit (u "feb")); (RLit (u "márc")); (RLit (u "marc")); (RLit (u "ápr")); (RLit (u "apr")); (RLit (u "máj")); (RLit (u "maj")); (RLit (u "jún")); (RLit (u "jun")); (RLit (u "júl")); (RLit (u "jul")); (RLit (u "aug")); (RLit (u "szept")); (RLit (u "okt")); (RLit (u "nov")); (RLit (u "dec")); (RLit (u "JAN")); (RLit (u "FEB")); (RLit (u "MÁRC")); (RLit (u "MARC")); (RLit (u "ÁPR")); (RLit (u "APR")); (RLit (u "MÁJ")); (RLit (u "MAJ")); (RLit (u "JÚN")); (RLit (u "JUN")); (RLit (u "JÚL")); (RLit (u "JUL")); (RLit (u "AUG")); (RLit (u "SZEPT")); (RLit (u "OKT")); (RLit (u "NOV")); (RLit (u "DEC")); (RLit (u "Jan")); (RLit (u "Feb")); (RLit (u "Márc")); (RLit (u "Marc")); (RLit (u "Ápr")); (RLit (u "Apr")); (RLit (u "Máj")); (RLit (u "Maj")); (RLit (u "Jún")); (RLit (u "Jun")); (RLit (u "Júl")); (RLit (u "Jul")); (RLit (u "Aug")); (RLit (u "Szept")); (RLit (u "Okt")); (RLit (u "Nov")); (RLit (u "Dec"))])); (RRep (CSet true [CRange 48 57]) 0%nat (Some 7%nat)); REnd]), 2%nat));
  ((u "ixt:date-monthname-day-lt"), ((rseq [REps; (RGrp 1%nat (ralts [(RLit (u "sau")); (RLit (u "vas")); (RLit (u "kov")); (RLit (u "bal")); (RLit (u "geg")); (RLit (u "bir")); (RLit (u "lie")); (RLit (u "rugp")); (RLit (u "rgp")); (RLit (u "rugs")); (RLit (u "rgs")); (RLit (u "spa")); (RLit (u "spl")); (RLit (u "lap")); (RLit (u "gru")); (RLit (u "grd")); (RLit (u "SAU")); (RLit (u "VAS")); (RLit (u "KOV")); (RLit (u "BAL")); (RLit (u "GEG")); (RLit (u "BIR")); (RLit (u "LIE")); (RLit (u "RUGP")); (RLit (u "RGP")); (RLit (u "RUGS")); (RLit (u "RGS")); (RLit (u "SPA")); (RLit (u "SPL")); (RLit (u "LAP")); (RLit (u "GRU")); (RLit (u "GRD")); (RLit (u "Sau")); (RLit (u "Vas")); (RLit (u "Kov")); (RLit (u "Bal")); (RLit (u "Geg")); (RLit (u "Bir")); (RLit (u "Lie")); (RLit (u "Rugp")); (RLit (u "Rgp")); (RLit (u "Rugs")); (RLit (u "Rgs")); (RLit (u "Spa")); (RLit (u "Spl")); (RLit (u "Lap")); (RLit (u "Gru")); (RLit (u "Grd"))])); (RRep (CSet true [CRange 48 57]) 0%nat (Some 6%nat)); (RRep (CSet true [CRange 48 57]) 1%nat None); (RGrp 2%nat (RRep (CSet false [CRange 48 57]) 1%nat (Some 2%nat))); (RRep (CSet true [CRange 48 57]) 0%nat None); REnd]), 2%nat));
  ((u "ixt:date-year-monthname-day-lt"), ((rseq [REps; (RGrp 1%nat (ralts [(RRep (CSet false [CRange 48 57]) 1%nat (Some 2%nat)); (RRep (CSet false [CRange 48 57]) 4%nat (Some 4%nat))])); (RRep (CSet true [CRange 48 57]) 0%nat None); (RRep (CSet true [CRange 48 57; CRange 97 122; CRange 65 90]) 1%nat None); (RGrp 2%nat (ralts [(RLit (u "sau")); (RLit (u "vas")); (RLit (u "kov")); (RLit (u "bal")); (RLit (u "geg")); (RLit (u "bir")); (RLit (u "lie")); (RLit (u "rugp")); (RLit (u "rgp")); (RLit (u "rugs")); (RLit (u "rgs")); (RLit (u "spa")); (RLit (u "spl")); (RLit (u "lap")); (RLit (u "gru")); (RLit (u "grd")); (RLit (u "SAU")); (RLit (u "VAS")); (RLit (u "KOV")); (RLit (u "BAL")); (RLit (u "GEG")); (RLit (u "BIR")); (RLit (u "LIE")); (RLit (u "RUGP")); (RLit (u "RGP")); (RLit (u "RUGS")); (RLit (u "RGS")); (RLit (u "SPA")); (RLit (u "SPL")); (RLit (u "LAP")); (RLit (u "GRU")); (RLit (u "GRD")); (RLit (u "Sau")); (RLit (u "Vas")); (RLit (u "Kov")); (RLit (u "Bal")); (RLit (u "Geg")); (RLit (u "Bir")); (RLit (u "Lie")); (RLit (u "Rugp")); (RLit (u "Rgp")); (RLit (u "Rugs")); (RLit (u "Rgs")); (RLit (u "Spa")); (RLit (u "Spl")); (RLit (u "Lap")); (RLit (u "Gru")); (RLit (u "Grd"))])); (RRep (CSet true [CRange 48 57]) 1%nat None); (RGrp 3%nat (RRep (CSet false [CRange 48 57]) 1%nat (Some 2%nat))); (RRep (CSet true [CRange 48 57]) 0%nat None); REnd]), 3%nat));
  ((u "ixt:date-year-monthname-lt"), ((rseq [REps; (RGrp 1%nat (ralts [(RRep (CSet false [CRange 48 57]) 1%nat (Some 2%nat)); (RRep (CSet false [CRange 48 57]) 4%nat (Some 4%nat))])); (RRep (CSet true [CRange 48 57]) 0%nat None); (RRep (CSet true [CRange 48 57; CRange 97 122; CRange 65 90]) 1%nat None); (RGrp 2%nat (ralts [(RLit (u "sau")); (RLit (u "vas")); (RLit (u "kov")); (RLit (u "bal")); (RLit (u "geg")); (RLit (u "bir")); (RLit (u "lie")); (RLit (u "rugp")); (RLit (u "rgp")); (RLit (u "rugs")); (RLit (u "rgs")); (RLit (u "spa")); (RLit (u "spl")); (RLit (u "lap")); (RLit (u "gru")); (RLit (u "grd")); (RLit (u "SAU")); (RLit (u "VAS")); (RLit (u "KOV")); (RLit (u "BAL")); (RLit (u "GEG")); (RLit (u "BIR")); (RLit (u "LIE")); (RLit (u "RUGP")); (RLit (u "RGP")); (RLit (u "RUGS")); (RLit (u "RGS")); (RLit (u "SPA")); (RLit (u "SPL")); (RLit (u "LAP")); (RLit (u "GRU")); (RLit (u "GRD")); (RLit (u "Sau")); (RLit (u "Vas")); (RLit (u "Kov")); (RLit (u "Bal")); (RLit (u "Geg")); (RLit (u "Bir")); (RLit (u "Lie")); (RLit (u "Rugp")); (RLit (u "Rgp")); (RLit (u "Rugs")); (RLit (u "Rgs")); (RLit (u "Spa")); (RLit (u "Spl")); (RLit (u "Lap")); (RLit (u "Gru")); (RLit (u "Grd"))])); (RRep (CSet true [CRange 48 57]) 0%nat None); REnd]), 2%nat));
  ((u "ixt:date-day-monthname-lv"), ((rseq [REps; (RGrp 1%nat (RRep (CSet false [CRange 48 57]) 1%nat (Some 2%nat))); (RRep (CSet true [CRange 48 57]) 1%nat None); (RGrp 2%nat (ralts [(RLit (u "janv")); (RLit (u "febr")); (RLit (u "marts")); (RLit (u "apr")); (RLit (u "maijs")); (RLit (u "jūn")); (RLit (u "jun")); (RLit (u "jūl")); (RLit (u "jul")); (RLit (u "aug")); (RLit (u "sept")); (RLit (u "okt")); (RLit (u "nov")); (RLit (u "dec")); (RLit (u "JANV")); (RLit (u "FEBR")); (RLit (u "MARTS")); (RLit (u "APR")); (RLit (u "MAIJS")); (RLit (u "JŪN")); (RLit (u "JUN")); (RLit (u "JŪL")); (RLit (u "JUL")); (RLit (u "AUG")); (RLit (u "SEPT")); (RLit (u "OKT")); (RLit (u "NOV")); (RLit (u "DEC")); (RLit (u "Janv")); (RLit (u "Febr")); (RLit (u "Marts")); (RLit (u "Apr")); (RLit (u "Maijs")); (RLit (u "Jūn")); (RLit (u "Jun")); (RLit (u "Jūl")); (RLit (u "Jul")); (RLit (u "Aug")); (RLit (u "Sept")); (RLit (u "Okt")); (RLit (u "Nov")); (RLit (u "Dec"))])); (RRep (CSet true [CRange 48 57]) 0%nat (Some 6%nat)); REnd]), 2%nat));
  ((u "ixt:date-year-day-monthname-lv"), ((rseq [REps; (RGrp 1%nat (ralts [(RRep (CSet false [CRange 48 57]) 1%nat (Some 2%nat)); (RRep (CSet false [CRange 48 57]) 4%nat (Some 4%nat))])); (RRep (CSet true [CRange 48 57]) 1%nat None); (RGrp 2%nat (RRep (CSet false [CRange 48 57]) 1%nat (Some 2%nat))); (RRep (CSet true [CRange 48 57]) 1%nat None); (RGrp 3%nat (ralts [(RLit (u "janv")); (RLit (u "febr")); (RLit (u "marts")); (RLit (u "apr")); (RLit (u "maijs")); (RLit (u "jūn")); (RLit (u "jun")); (RLit (u "jūl")); (RLit (u "jul")); (RLit (u "aug")); (RLit (u "sept")); (RLit (u "okt")); (RLit (u "nov")); (RLit (u "dec")); (RLit (u "JANV")); (RLit (u "FEBR")); (RLit (u "MARTS")); (RLit (u "APR")); (RLit (u "MAIJS")); (RLit (u "JŪN")); (RLit (u "JUN")); (RLit (u "JŪL")); (RLit (u "JUL")); (RLit (u "AUG")); (RLit (u "SEPT")); (RLit (u "OKT")); (RLit (u "NOV")); (RLit (u "DEC")); (RLit (u "Janv")); (RLit (u "Febr")); (RLit (u "Marts")); (RLit (u "Apr")); (RLit (u "Maijs")); (RLit (u "Jūn")); (RLit (u "Jun")); (RLit (u "Jūl")); (RLit (u "Jul")); (RLit (u "Aug")); (RLit (u "Sept")); (RLit (u "Okt")); (RLit (u "Nov")); (RLit (u "Dec"))])); (RRep (CSet true [CRange 48 57]) 0%nat None); REnd]), 3%nat));
  ((u "ixt:date-year-monthname-lv"), ((rseq [REps; (RGrp 1%nat (ralts [(RRep (CSet false [CRange 48 57]) 1%nat (Some 2%nat)); (RRep (CSet false [CRange 48 57]) 4%nat (Some 4%nat))])); (RRep (CSet true [CRange 48 57]) 1%nat None); (RGrp 2%nat (ralts [(RLit (u "janv")); (RLit (u "febr")); (RLit (u "marts")); (RLit (u "apr")); (RLit (u "maijs")); (RLit (u "jūn")); (RLit (u "jun")); (RLit (u "jūl")); (RLit (u "jul")); (RLit (u "aug")); (RLit (u "sept")); (RLit (u "okt")); (RLit (u "nov")); (RLit (u "dec")); (RLit (u "JANV")); (RLit (u "FEBR")); (RLit (u "MARTS")); (RLit (u "APR")); (RLit (u "MAIJS")); (RLit (u "JŪN")); (RLit (u "JUN")); (RLit (u "JŪL")); (RLit (u "JUL")); (RLit (u "AUG")); (RLit (u "SEPT")); (RLit (u "OKT")); (RLit (u "NOV")); (RLit (u "DEC")); (RLit (u "Janv")); (RLit (u "Febr")); (RLit (u "Marts")); (RLit (u "Apr")); (RLit (u "Maijs")); (RLit (u "Jūn")); (RLit (u "Jun")); (RLit (u "Jūl")); (RLit (u "Jul")); (RLit (u "Aug")); (RLit (u "Sept")); (RLit (u "Okt")); (RLit (u "Nov")); (RLit (u "Dec"))])); (RRep (CSet true [CRange 48 57]) 0%nat (Some 7%nat)); REnd]), 2%nat));
  ((u "ixt:date-day-monthname-no"), ((rseq [REps; (RGrp 1%nat (RRep (CSet false [CRange 48 57]) 1%nat (Some 2%nat))); (RRep (CSet true [CRange 48 57]) 1%nat None); (RGrp 2%nat (ralts [(RLit (u "jan")); (RLit (u "feb")); (RLit (u "mar")); (RLit (u "apr")); (RLit (u "mai")); (RLit (u "jun")); (RLit (u "jul")); (RLit (u "aug")); (RLit (u "sep")); (RLit (u "okt")); (RLit (u "nov")); (RLit (u "des")); (RLit (u "JAN")); (RLit (u "FEB")); (RLit (u "MAR")); (RLit (u "APR")); (RLit (u "MAI")); (RLit (u "JUN")); (RLit (u "JUL")); (RLit (u "AUG")); (RLit (u "SEP")); (RLit (u "OKT")); (RLit (u "NOV")); (RLit (u "DES")); (RLit (u "Jan")); (RLit (u "Feb")); (RLit (u "Mar")); (RLit (u "Apr")); (RLit (u "Mai")); (RLit (u "Jun")); (RLit (u "Jul")); (RLit (u "Aug")); (RLit (u "Sep")); (RLit (u "Okt")); (RLit (u "Nov")); (RLit (u "Des"))])); (RRep (CSet true [CRange 48 57]) 0%nat (Some 6%nat)); REnd]), 2%nat));
  ((u "ixt:date-day-monthname-year-no"), ((rseq [REps; (RGrp 1%nat (RRep (CSet false [CRange 48 57]) 1%nat (Some 2%nat))); (RRep (CSet true [CRange 48 57]) 1%nat None); (RGrp 2%nat (ralts [(RLit (u "jan")); (RLit (u "feb")); (RLit (u "mar")); (RLit (u "apr")); (RLit (u "mai")); (RLit (u "jun")); (RLit (u "jul")); (RLit (u "aug")); (RLit (u "sep")); (RLit (u "okt")); (RLit (u "nov")); (RLit (u "des")); (RLit (u "JAN")); (RLit (u "FEB")); (RLit (u "MAR")); (RLit (u "APR")); (RLit (u "MAI")); (RLit (u "JUN")); (RLit (u "JUL")); (RLit (u "AUG")); (RLit (u "SEP")); (RLit (u "OKT")); (RLit (u "NOV")); (RLit (u "DES")); (RLit (u "Jan")); (RLit (u "Feb")); (RLit (u "Mar")); (RLit (u "Apr")); (RLit (u "Mai")); (RLit (u "Jun")); (RLit (u "Jul")); (RLit (u "Aug")); (RLit (u "Sep")); (RLit (u "Okt")); (RLit (u "Nov")); (RLit (u "Des"))])); (RRep (CSet true [CRange 48 57]) 1%nat None); (RGrp 3%nat (ralts [(RRep (CSet false [CRange 48 57]) 1%nat (Some 2%nat)); (RRep (CSet false [CRange 48 57]) 4%nat (Some 4%nat))])); REnd]), 3%nat));
  ((u "ixt:date-monthname-year-no"), ((rseq [REps; (RGrp 1%nat (ralts [(RLit (u "jan")); (RLit (u "feb")); (RLit (u "mar")); (RLit (u "apr")); (RLit (u "mai")); (RLit (u "jun")); (RLit (u "jul")); (RLit (u "aug")); (RLit (u "sep")); (RLit (u "okt")); (RLit (u "nov")); (RLit (u "des")); (RLit (u "JAN")); (RLit (u "FEB")); (RLit (u "MAR")); (RLit (u "APR")); (RLit (u "MAI")); (RLit (u "JUN")); (RLit (u "JUL")); (RLit (u "AUG")); (RLit (u "SEP")); (RLit (u "OKT")); (RLit (u "NOV")); (RLit (u "DES")); (RLit (u "Jan")); (RLit (u "Feb")); (RLit (u "Mar")); (RLit (u "Apr")); (RLit (u "Mai")); (RLit (u "Jun")); (RLit (u "Jul")); (RLit (u "Aug")); (RLit (u "Sep")); (RLit (u "Okt")); (RLit (u "Nov")); (RLit (u "Des"))])); (RRep (CSet true [CRange 48 57]) 1%nat None); (RGrp 2%nat (ralts [(RRep (CSet false [CRange 48 57]) 1%nat (Some 2%nat)); (RRep (CSet false [CRange 48 57]) 4%nat (Some 4%nat))])); REnd]), 2%nat));
  ((u "ixt:date-day-monthname-pl"), ((rseq [REps; (RGrp 1%nat (RRep (CSet false [CRange 48 57]) 1%nat (Some 2%nat))); (RRep (CSet true [CRange 48 57]) 0%nat None); (RRep (CSet true [CRange 48 57; CRange 97 122; CRange 65 90]) 1%nat None); (RGrp 2%nat (ralts [(RLit (u "sty")); (RLit (u "lut")); (RLit (u "mar")); (RLit (u "kwi")); (RLit (u "maj")); (RLit (u "cze")); (RLit (u "lip")); (RLit (u "sie")); (RLit (u "wrz")); (RLit (u "paź")); (RLit (u "paz")); (RLit (u "lis")); (RLit (u "gru")); (RLit (u "STY")); (RLit (u "LUT")); (RLit (u "MAR")); (RLit (u "KWI")); (RLit (u "MAJ")); (RLit (u "CZE")); (RLit (u "LIP")); (RLit (u "SIE")); (RLit (u "WRZ")); (RLit (u "PAŹ")); (RLit (u "PAZ")); (RLit (u "LIS")); (RLit (u "GRU")); (RLit (u "Sty")); (RLit (u "Lut")); (RLit (u "Mar")); (RLit (u "Kwi")); (RLit (u "Maj")); (RLit (u "Cze")); (RLit (u "Lip")); (RLit (u "Sie")); (RLit (u "Wrz")); (RLit (u "Paź")); (RLit (u "Paz")); (RLit (u "Lis")); (RLit (u "Gru"))])); (RRep (CSet true [CRange 48 57]) 0%nat (Some 9%nat)); REnd]), 2%nat));
  ((u "ixt:date-day-monthname-year-pl"), ((rseq [REps; (RGrp 1%nat (RRep (CSet false [CRange 48 57]) 1%nat (Some 2%nat))); (RRep (CSet true [CRange 48 57]) 0%nat None); (RRep (CSet true [CRange 48 57; CRange 97 122; CRange 65 90]) 1%nat None); (RGrp 2%nat (ralts [(RLit (u "sty")); (RLit (u "lut")); (RLit (u "mar")); (RLit (u "kwi")); (RLit (u "maj")); (RLit (u "cze")); (RLit (u "lip")); (RLit (u "sie")); (RLit (u "wrz")); (RLit (u "paź")); (RLit (u "paz")); (RLit (u "lis")); (RLit (u "gru")); (RLit (u "STY")); (RLit (u "LUT")); (RLit (u "MAR")); (RLit (u "KWI")); (RLit (u "MAJ")); (RLit (u "CZE")); (RLit (u "LIP")); (RLit (u "SIE")); (RLit (u "WRZ")); (RLit (u "PAŹ")); (RLit (u "PAZ")); (RLit (u "LIS")); (RLit (u "GRU")); (RLit (u "Sty")); (RLit (u "Lut")); (RLit (u "Mar")); (RLit (u "Kwi")); (RLit (u "Maj")); (RLit (u "Cze")); (RLit (u "Lip")); (RLit (u "Sie")); (RLit (u "Wrz")); (RLit (u "Paź")); (RLit (u "Paz")); (RLit (u "Lis")); (RLit (u "Gru"))])); (RRep (CSet true [CRange 48 57]) 1%nat None); (RGrp 3%nat (ralts [(RRep (CSet false [CRange 48 57]) 1%nat (Some 2%nat)); (RRep (CSet false [CRange 48 57]) 4%nat (Some 4%nat))])); (RRep (CSet true [CRange 48 57]) 0%nat None); REnd]), 3%nat));
  ((u "ixt:date-monthname-year-pl"), ((rseq [REps; (RGrp 1%nat (ralts [(RLit (u "sty")); (RLit (u "lut")); (RLit (u "mar")); (RLit (u "kwi")); (RLit (u "maj")); (RLit (u "cze")); (RLit (u "lip")); (RLit (u "sie")); (RLit (u "wrz")); (RLit (u "paź")); (RLit (u "paz")); (RLit (u "lis")); (RLit (u "gru")); (RLit (u "STY")); (RLit (u "LUT")); (RLit (u "MAR")); (RLit (u "KWI")); (RLit (u "MAJ")); (RLit (u "CZE")); (RLit (u "LIP")); (RLit (u "SIE")); (RLit (u "WRZ")); (RLit (u "PAŹ")); (RLit (u "PAZ")); (RLit (u "LIS")); (RLit (u "GRU")); (RLit (u "Sty")); (RLit (u "Lut")); (RLit (u "Mar")); (RLit (u "Kwi")); (RLit (u "Maj")); (RLit (u "Cze")); (RLit (u "Lip")); (RLit (u "Sie")); (RLit (u "Wrz")); (RLit (u "Paź")); (RLit (u "Paz")); (RLit (u "Lis")); (RLit (u "Gru"))])); (RRep (CSet true [CRange 48 57]) 1%nat None); (RGrp 2%nat (ralts [(RRep (CSet false [CRange 48 57]) 1%nat (Some 2%nat)); (RRep (CSet false [CRange 48 57]) 4%nat (Some 4%nat))])); (RRep (CSet true [CRange 48 57]) 0%nat None); REnd]), 2%nat));
  ((u "ixt:date-day-monthname-pt"), ((rseq [REps; (RGrp 1%nat (RRep (CSet false [CRange 48 57]) 1%nat (Some 2%nat))); (RRep (CSet true [CRange 48 57]) 1%nat None); (RGrp 2%nat (ralts [(RLit (u "jan")); (RLit (u "fev")); (RLit (u "mar")); (RLit (u "abr")); (RLit (u "mai")); (RLit (u "jun")); (RLit (u "jul")); (RLit (u "ago")); (RLit (u "set")); (RLit (u "out")); (RLit (u "nov")); (RLit (u "dez")); (RLit (u "JAN")); (RLit (u "FEV")); (RLit (u "MAR")); (RLit (u "ABR")); (RLit (u "MAI")); (RLit (u "JUN")); (RLit (u "JUL")); (RLit (u "AGO")); (RLit (u "SET")); (RLit (u "OUT")); (RLit (u "NOV")); (RLit (u "DEZ")); (RLit (u "Jan")); (RLit (u "Fev")); (RLit (u "Mar")); (RLit (u "Abr")); (RLit (u "Mai")); (RLit (u "Jun")); (RLit (u "Jul")); (RLit (u "Ago")); (RLit (u "Set")); (RLit (u "Out")); (RLit (u "Nov")); (RLit (u "Dez"))])); (RRep (CSet true [CRange 48 57]) 0%nat (Some 6%nat)); REnd]), 2%nat));
  ((u "ixt:date-day-monthname-year-pt"), ((rseq [REps; (RGrp 1%nat (RRep (CSet false [CRange 48 57]) 1%nat (Some 2%nat))); (RRep (CSet true [CRange 48 57]) 1%nat None); (RGrp 2%nat (ralts [(RLit (u "jan")); (RLit (u "fev")); (RLit (u "mar")); (RLit (u "abr")); (RLit (u "mai")); (RLit (u "jun")); (RLit (u "jul")); (RLit (u "ago")); (RLit (u "set")); (RLit (u "out")); (RLit (u "nov")); (RLit (u "dez")); (RLit (u "JAN")); (RLit (u "FEV")); (RLit (u "MAR")); (RLit (u "ABR")); (RLit (u "MAI")); (RLit (u "JUN")); (RLit (u "JUL")); (RLit (u "AGO")); (RLit (u "SET")); (RLit (u "OUT")); (RLit (u "NOV")); (RLit (u "DEZ")); (RLit (u "Jan")); (RLit (u "Fev")); (RLit (u "Mar")); (RLit (u "Abr")); (RLit (u "Mai")); (RLit (u "Jun")); (RLit (u "Jul")); (RLit (u "Ago")); (RLit (u "Set")); (RLit (u "Out")); (RLit (u "Nov")); (RLit (u "Dez"))])); (RRep (CSet true [CRange 48 57]) 1%nat None); (RGrp 3%nat (ralts [(RRep (CSet false [CRange 48 57]) 1%nat (Some 2%nat)); (RRep (CSet false [CRange 48 57]) 4%nat (Some 4%nat))])); REnd]), 3%nat));
  ((u "ixt:date-monthname-year-pt"), ((rseq [REps; (RGrp 1%nat (ralts [(RLit (u "jan")); (RLit (u "fev")); (RLit (u "mar")); (RLit (u "abr")); (RLit (u "mai")); (RLit (u "jun")); (RLit (u "jul")); (RLit (u "ago")); (RLit (u "set")); (RLit (u "out")); (RLit (u "nov")); (RLit (u "dez")); (RLit (u "JAN")); (RLit (u "FEV")); (RLit (u "MAR")); (RLit (u "ABR")); (RLit (u "MAI")); (RLit (u "JUN")); (RLit (u "JUL")); (RLit (u "AGO")); (RLit (u "SET")); (RLit (u "OUT")); (RLit (u "NOV")); (RLit (u "DEZ")); (RLit (u "Jan")); (RLit (u "Fev")); (RLit (u "Mar")); (RLit (u "Abr")); (RLit (u "Mai")); (RLit (u "Jun")); (RLit (u "Jul")); (RLit (u "Ago")); (RLit (u "Set")); (RLit (u "Out")); (RLit (u "Nov")); (RLit (u "Dez"))])); (RRep (CSet true [CRange 48 57]) 1%nat None); (RGrp 2%nat (ralts [(RRep (CSet false [CRange 48 57]) 1%nat (Some 2%nat)); (RRep (CSet false [CRange 48 57]) 4%nat (Some 4%nat))])); REnd]), 2%nat));
  ((u "ixt:date-day-monthname-ro"), ((rseq [REps; (RGrp 1%nat (RRep (CSet false [CRange 48 57]) 1%nat (Some 2%nat))); (RRep (CSet true [CRange 48 57]) 1%nat None); (RGrp 2%nat (ralts [(RLit (u "ian")); (RLit (u "feb")); (RLit (u "mar")); (RLit (u "apr")); (RLit (u "mai")); (RLit (u "iun")); (RLit (u "iul")); (RLit (u "aug")); (RLit (u "sep")); (RLit (u "oct")); (RLit (u "noi")); (RLit (u "nov")); (RLit (u "dec")); (RLit (u "IAN")); (RLit (u "FEB")); (RLit (u "MAR")); (RLit (u "APR")); (RLit (u "MAI")); (RLit (u "IUN")); (RLit (u "IUL")); (RLit (u "AUG")); (RLit (u "SEP")); (RLit (u "OCT")); (RLit (u "NOI")); (RLit (u "NOV")); (RLit (u "DEC")); (RLit (u "Ian")); (RLit (u "Feb")); (RLit (u "Mar")); (RLit (u "Apr")); (RLit (u "Mai")); (RLit (u "Iun")); (RLit (u "Iul")); (RLit (u "Aug")); (RLit (u "Sep")); (RLit (u "Oct")); (RLit (u "Noi")); (RLit (u "Nov")); (RLit (u "Dec"))])); (RRep (CSet true [CRange 48 57]) 0%nat (Some 7%nat)); REnd]), 2%nat));
  ((u "ixt:date-day-monthname-year-ro"), ((rseq [REps; (RGrp 1%nat (RRep (CSet false [CRange 48 57]) 1%nat (Some 2%nat))); (RRep (CSet true [CRange 48 57]) 1%nat None); (RGrp 2%nat (ralts [(RLit (u "ian")); (RLit (u "feb")); (RLit (u "mar")); (RLit (u "apr")); (RLit (u "mai")); (RLit (u "iun")); (RLit (u "iul")); (RLit (u "aug")); (RLit (u "sep")); (RLit (u "oct")); (RLit (u "noi")); (RLit (u "nov")); (RLit (u "dec")); (RLit (u "IAN")); (RLit (u "FEB")); (RLit (u "MAR")); (RLit (u "APR")); (RLit (u "MAI")); (RLit (u "IUN")); (RLit (u "IUL")); (RLit (u "AUG")); (RLit (u "SEP")); (RLit (u "OCT")); (RLit (u "NOI")); (RLit (u "NOV")); (RLit (u "DEC")); (RLit (u "Ian")); (RLit (u "Feb")); (RLit (u "Mar")); (RLit (u "Apr")); (RLit (u "Mai")); (RLit (u "Iun")); (RLit (u "Iul")); (RLit (u "Aug")); (RLit (u "Sep")); (RLit (u "Oct")); (RLit (u "Noi")); (RLit (u "Nov")); (RLit (u "Dec"))])); (RRep (CSet true [CRange 48 57]) 1%nat None); (RGrp 3%nat (ralts [(RRep (CSet false [CRange 48 57]) 1%nat (Some 2%nat)); (RRep (CSet false [CRange 48 57]) 4%nat (Some 4%nat))])); REnd]), 3%nat));
  ((u "ixt:date-monthname-year-ro"), ((rseq [REps; (RGrp 1%nat (ralts [(RLit (u "ian")); (RLit (u "feb")); (RLit (u "mar")); (RLit (u "apr")); (RLit (u "mai")); (RLit (u "iun")); (RLit (u "iul")); (RLit (u "aug")); (RLit (u "sep")); (RLit (u "oct")); (RLit (u "noi")); (RLit (u "nov")); (RLit (u "dec")); (RLit (u "IAN")); (RLit (u "FEB")); (RLit (u "MAR")); (RLit (u "APR")); (RLit (u "MAI")); (RLit (u "IUN")); (RLit (u "IUL")); (RLit (u "AUG")); (RLit (u "SEP")); (RLit (u "OCT")); (RLit (u "NOI")); (RLit (u "NOV")); (RLit (u "DEC")); (RLit (u "Ian")); (RLit (u "Feb")); (RLit (u "Mar")); (RLit (u "Apr")); (RLit (u "Mai")); (RLit (u "Iun")); (RLit (u "Iul")); (RLit (u "Aug")); (RLit (u "Sep")); (RLit (u "Oct")); (RLit (u "Noi")); (RLit (u "Nov")); (RLit (u "Dec"))])); (RRep (CSet true [CRange 48 57]) 1%nat None); (RGrp 2%nat (ralts [(RRep (CSet false [CRange 48 57]) 1%nat (Some 2%nat)); (RRep (CSet false [CRange 48 57]) 4%nat (Some 4%nat))])); REnd]), 2%nat));
  ((u "ixt:date-day-monthname-sk"), ((rseq [REps; (RGrp 1%nat (RRep (CSet false [CRange 48 57]) 1%nat (Some 2%nat))); (RRep (CSet true [CRange 48 57]) 1%nat None); (RGrp 2%nat (ralts [(RLit (u "jan")); (RLit (u "feb")); (RLit (u "mar")); (RLit (u "apr")); (RLit (u "máj")); (RLit (u "maj")); (RLit (u "jún")); (RLit (u "jun")); (RLit (u "júl")); (RLit (u "jul")); (RLit (u "aug")); (RLit (u "sep")); (RLit (u "okt")); (RLit (u "nov")); (RLit (u "dec")); (RLit (u "JAN")); (RLit (u "FEB")); (RLit (u "MAR")); (RLit (u "APR")); (RLit (u "MÁJ")); (RLit (u "MAJ")); (RLit (u "JÚN")); (RLit (u "JUN")); (RLit (u "JÚL")); (RLit (u "JUL")); (RLit (u "AUG")); (RLit (u "SEP")); (RLit (u "OKT")); (RLit (u "NOV")); (RLit (u "DEC")); (RLit (u "Jan")); (RLit (u "Feb")); (RLit (u "Mar")); (RLit (u "Apr")); (RLit (u "Máj")); (RLit (u "Maj")); (RLit (u "Jún")); (RLit (u "Jun")); (RLit (u "Júl")); (RLit (u "Jul")); (RLit (u "Aug")); (RLit (u "Sep")); (RLit (u "Okt")); (RLit (u "Nov")); (RLit (u "Dec"))])); (RRep (CSet true [CRange 48 57]) 0%nat (Some 6%nat)); REnd]), 2%nat));
  ((u "ixt:date-day-monthname-year-sk"), ((rseq [REps; (RGrp 1%nat (RRep (CSet false [CRange 48 57]) 1%nat (Some 2%nat))); (RRep (CSet true [CRange 48 57]) 1%nat None); (RGrp 2%nat (ralts [(RLit (u "jan")); (RLit (u "feb")); (RLit (u "mar")); (RLit (u "apr")); (RLit (u "máj")); (RLit (u "maj")); (RLit (u "jún")); (RLit (u "jun")); (RLit (u "júl")); (RLit (u "jul")); (RLit (u "aug")); (RLit (u "sep")); (RLit (u "okt")); (RLit (u "nov")); (RLit (u "dec")); (RLit (u "JAN")); (RLit (u "FEB")); (RLit (u "MAR")); (RLit (u "APR")); (RLit (u "MÁJ")); (RLit (u "MAJ")); (RLit (u "JÚN")); (RLit (u "JUN")); (RLit (u "JÚL")); (RLit (u "JUL")); (RLit (u "AUG")); (RLit (u "SEP")); (RLit (u "OKT")); (RLit (u "NOV")); (RLit (u "DEC")); (RLit (u "Jan")); (RLit (u "Feb")); (RLit (u "Mar")); (RLit (u "Apr")); (RLit (u "Máj")); (RLit (u "Maj")); (RLit (u "Jún")); (RLit (u "Jun")); (RLit (u "Júl")); (RLit (u "Jul")); (RLit (u "Aug")); (RLit (u "Sep")); (RLit (u "Okt")); (RLit (u "Nov")); (RLit (u "Dec"))])); (RRep (CSet true [CRange 48 57]) 1%nat None); (RGrp 3%nat (ralts [(RRep (CSet false [CRange 48 57]) 1%nat (Some 2%nat)); (RRep (CSet false [CRange 48 57]) 4%nat (Some 4%nat))])); REnd]), 3%nat));
  ((u "ixt:date-monthname-year-sk"), ((rseq [REps; (RGrp 1%nat (ralts [(RLit (u "jan")); (RLit (u "feb")); (RLit (u "mar")); (RLit (u "apr")); (RLit (u "máj")); (RLit (u "maj")); (RLit (u "jún")); (RLit (u "jun")); (RLit (u "júl")); (RLit (u "jul")); (RLit (u "aug")); (RLit (u "sep")); (RLit (u "okt")); (RLit (u "nov")); (RLit (u "dec")); (RLit (u "JAN")); (RLit (u "FEB")); (RLit (u "MAR")); (RLit (u "APR")); (RLit (u "MÁJ")); (RLit (u "MAJ")); (RLit (u "JÚN")); (RLit (u "JUN")); (RLit (u "JÚL")); (RLit (u "JUL")); (RLit (u "AUG")); (RLit (u "SEP")); (RLit (u "OKT")); (RLit (u "NOV")); (RLit (u "DEC")); (RLit (u "Jan")); (RLit (u "Feb")); (RLit (u "Mar")); (RLit (u "Apr")); (RLit (u "Máj")); (RLit (u "Maj")); (RLit (u "Jún")); (RLit (u "Jun")); (RLit (u "Júl")); (RLit (u "Jul")); (RLit (u "Aug")); (RLit (u "Sep")); (RLit (u "Okt")); (RLit (u "Nov")); (RLit (u "Dec"))])); (RRep (CSet true [CRange 48 57]) 1%nat None); (RGrp 2%nat (ralts [(RRep (CSet false [CRange 48 57]) 1%nat (Some 2%nat)); (RRep (CSet false [CRange 48 57]) 4%nat (Some 4%nat))])); REnd]), 2%nat));
  ((u "ixt:date-day-monthname-sl"), ((rseq [REps; (RRep (CSet false [CRange 48 57]) 1%nat (Some 2%nat)); (RRep (CSet true [CRange 48 57]) 1%nat None); (RGrp 1%nat (ralts [(RLit (u "jan")); (RLit (u "feb")); (RLit (u "mar")); (RLit (u "apr")); (RLit (u "maj")); (RLit (u "jun")); (RLit (u "jul")); (RLit (u "avg")); (RLit (u "sep")); (RLit (u "okt")); (RLit (u "nov")); (RLit (u "dec")); (RLit (u "JAN")); (RLit (u "FEB")); (RLit (u "MAR")); (RLit (u "APR")); (RLit (u "MAJ")); (RLit (u "JUN")); (RLit (u "JUL")); (RLit (u "AVG")); (RLit (u "SEP")); (RLit (u "OKT")); (RLit (u "NOV")); (RLit (u "DEC")); (RLit (u "Jan")); (RLit (u "Feb")); (RLit (u "Mar")); (RLit (u "Apr")); (RLit (u "Maj")); (RLit (u "Jun")); (RLit (u "Jul")); (RLit (u "Avg")); (RLit (u "Sep")); (RLit (u "Okt")); (RLit (u "Nov")); (RLit (u "Dec"))])); (RRep (CSet true [CRange 48 57]) 0%nat (Some 6%nat)); REnd]), 1%nat));
  ((u "ixt:date-day-monthname-year-sl"), ((rseq [REps; (RRep (CSet false [CRange 48 57]) 1%nat (Some 2%nat)); (RRep (CSet true [CRange 48 57]) 1%nat None); (RGrp 1%nat (ralts [(RLit (u "jan")); (RLit (u "feb")); (RLit (u "mar")); (RLit (u "apr")); (RLit (u "maj")); (RLit (u "jun")); (RLit (u "jul")); (RLit (u "avg")); (RLit (u "sep")); (RLit (u "okt")); (RLit (u "nov")); (RLit (u "dec")); (RLit (u "JAN")); (RLit (u "FEB")); (RLit (u "MAR")); (RLit (u "APR")); (RLit (u "MAJ")); (RLit (u "JUN")); (RLit (u "JUL")); (RLit (u "AVG")); (RLit (u "SEP")); (RLit (u "OKT")); (RLit (u "NOV")); (RLit (u "DEC")); (RLit (u "Jan")); (RLit (u "Feb")); (RLit (u "Mar")); (RLit (u "Apr")); (RLit (u "Maj")); (RLit (u "Jun")); (RLit (u "Jul")); (RLit (u "Avg")); (RLit (u "Sep")); (RLit (u "Okt")); (RLit (u "Nov")); (RLit (u "Dec"))])); (RRep (CSet true [CRange 48 57]) 1%nat None); (RGrp 2%nat (ralts [(RRep (CSet false [CRange 48 57]) 1%nat (Some 2%nat)); (RRep (CSet false [CRange 48 57]) 4%nat (Some 4%nat))])); REnd]), 2%nat));
  ((u "ixt:date-monthname-year-sl"), ((rseq [REps; (RGrp 1%nat (ralts [(RLit (u "jan")); (RLit (u "feb")); (RLit (u "mar")); (RLit (u "apr")); (RLit (u "maj")); (RLit (u "jun")); (RLit (u "jul")); (RLit (u "avg")); (RLit (u "sep")); (RLit (u "okt")); (RLit (u "nov")); (RLit (u "dec")); (RLit (u "JAN")); (RLit (u "FEB")); (RLit (u "MAR")); (RLit (u "APR")); (RLit (u "MAJ")); (RLit (u "JUN")); (RLit (u "JUL")); (RLit (u "AVG")); (RLit (u "SEP")); (RLit (u "OKT")); (RLit (u "NOV")); (RLit (u "DEC")); (RLit (u "Jan")); (RLit (u "Feb")); (RLit (u "Mar")); (RLit (u "Apr")); (RLit (u "Maj")); (RLit (u "Jun")); (RLit (u "Jul")); (RLit (u "Avg")); (RLit (u "Sep")); (RLit (u "Okt")); (RLit (u "Nov")); (RLit (u "Dec"))])); (RRep (CSet true [CRange 48 57]) 1%nat None); (RGrp 2%nat (ralts [(RRep (CSet false [CRange 48 57]) 1%nat (Some 2%nat)); (RRep (CSet false [CRange 48 57]) 4%nat (Some 4%nat))])); REnd]), 2%nat));
  ((u "ixt:date-day-monthname-sv"), ((rseq [REps; (RGrp 1%nat (RRep (CSet false [CRange 48 57]) 1%nat (Some 2%nat))); (RRep (CSet true [CRange 48 57]) 1%nat None); (RGrp 2%nat (ralts [(RLit (u "jan")); (RLit (u "feb")); (RLit (u "mar")); (RLit (u "apr")); (RLit (u "maj")); (RLit (u "jun")); (RLit (u "jul")); (RLit (u "aug")); (RLit (u "sep")); (RLit (u "okt")); (RLit (u "nov")); (RLit (u "dec")); (RLit (u "JAN")); (RLit (u "FEB")); (RLit (u "MAR")); (RLit (u "APR")); (RLit (u "MAJ")); (RLit (u "JUN")); (RLit (u "JUL")); (RLit (u "AUG")); (RLit (u "SEP")); (RLit (u "OKT")); (RLit (u "NOV")); (RLit (u "DEC")); (RLit (u "Jan")); (RLit (u "Feb")); (RLit (u "Mar")); (RLit (u "Apr")); (RLit (u "Maj")); (RLit (u "Jun")); (RLit (u "Jul")); (RLit (u "Aug")); (RLit (u "Sep")); (RLit (u "Okt")); (RLit (u "Nov")); (RLit (u "Dec"))])); (RRep (CSet true [CRange 48 57]) 0%nat (Some 6%nat)); REnd]), 2%nat));
  ((u "ixt:date-day-monthname-year-sv"), ((rseq [REps; (RGrp 1%nat (RRep (CSet false [CRange 48 57]) 1%nat (Some 2%nat))); (RRep (CSet true [CRange 48 57]) 1%nat None); (RGrp 2%nat (ralts [(RLit (u "jan")); (RLit (u "feb")); (RLit (u "mar")); (RLit (u "apr")); (RLit (u "maj")); (RLit (u "jun")); (RLit (u "jul")); (RLit (u "aug")); (RLit (u "sep")); (RLit (u "okt")); (RLit (u "nov")); (RLit (u "dec")); (RLit (u "JAN")); (RLit (u "FEB")); (RLit (u "MAR")); (RLit (u "APR")); (RLit (u "MAJ")); (RLit (u "JUN")); (RLit (u "JUL")); (RLit (u "AUG")); (RLit (u "SEP")); (RLit (u "OKT")); (RLit (u "NOV")); (RLit (u "DEC")); (RLit (u "Jan")); (RLit (u "Feb")); (RLit (u "Mar")); (RLit (u "Apr")); (RLit (u "Maj")); (RLit (u "Jun")); (RLit (u "Jul")); (RLit (u "Aug")); (RLit (u "Sep")); (RLit (u "Okt")); (RLit (u "Nov")); (RLit (u "Dec"))])); (RRep (CSet true [CRange 48 57]) 1%nat None); (RGrp 3%nat (ralts [(RRep (CSet false [CRange 48 57]) 1%nat (Some 2%nat)); (RRep (CSet false [CRange 48 57]) 4%nat (Some 4%nat))])); REnd]), 3%nat));
  ((u "ixt:date-monthname-year-sv"), ((rseq [REps; (RGrp 1%nat (ralts [(RLit (u "jan")); (RLit (u "feb")); (RLit (u "mar")); (RLit (u "apr")); (RLit (u "maj")); (RLit (u "jun")); (RLit (u "jul")); (RLit (u "aug")); (RLit (u "sep")); (RLit (u "okt")); (RLit (u "nov")); (RLit (u "dec")); (RLit (u "JAN")); (RLit (u "FEB")); (RLit (u "MAR")); (RLit (u "APR")); (RLit (u "MAJ")); (RLit (u "JUN")); (RLit (u "JUL")); (RLit (u "AUG")); (RLit (u "SEP")); (RLit (u "OKT")); (RLit (u "NOV")); (RLit (u "DEC")); (RLit (u "Jan")); (RLit (u "Feb")); (RLit (u "Mar")); (RLit (u "Apr")); (RLit (u "Maj")); (RLit (u "Jun")); (RLit (u "Jul")); (RLit (u "Aug")); (RLit (u "Sep")); (RLit (u "Okt")); (RLit (u "Nov")); (RLit (u "Dec"))])); (RRep (CSet true [CRange 48 57]) 1%nat None); (RGrp 2%nat (ralts [(RRep (CSet false [CRange 48 57]) 1%nat (Some 2%nat)); (RRep (CSet false [CRange 48 57]) 4%nat (Some 4%nat))])); REnd]), 2%nat));
  ((u "ixt:date-jpn-era-year-month"), ((rseq [REps; (RGrp 1%nat (ralts [(RLit (u "明治")); (RLit (u "明")); (RLit (u "大正")); (RLit (u "大")); (RLit (u "昭和")); (RLit (u "昭")); (RLit (u "平成")); (RLit (u "平")); (RLit (u "令和")); (RLit (u "令"))])); (RRep (CSet false [CSpace; CRange 32 32]) 0%nat None); (RGrp 2%nat (ralts [(RRep (CSet false [CRange 48 57; CRange 65296 65305]) 1%nat (Some 2%nat)); (RLit (u "元"))])); (RRep (CSet false [CSpace; CRange 32 32]) 0%nat None); RLit (u "年"); (RRep (CSet false [CSpace; CRange 32 32]) 0%nat None); (RGrp 3%nat (RRep (CSet false [CRange 48 57; CRange 65296 65305]) 1%nat (Some 2%nat))); (RRep (CSet false [CSpace; CRange 32 32]) 0%nat None); RLit (u "月"); REnd]), 3%nat));
  ((u "ixt:date-jpn-era-year-month-day"), ((rseq [REps; (RGrp 1%nat (ralts [(RLit (u "明治")); (RLit (u "明")); (RLit (u "大正")); (RLit (u "大")); (RLit (u "昭和")); (RLit (u "昭")); (RLit (u "平成")); (RLit (u "平")); (RLit (u "令和")); (RLit (u "令"))])); (RRep (CSet false [CSpace; CRange 32 32]) 0%nat None); (RGrp 2%nat (ralts [(RRep (CSet false [CRange 48 57; CRange 65296 65305]) 1%nat (Some 2%nat)); (RLit (u "元"))])); (RRep (CSet false [CSpace; CRange 32 32]) 0%nat None); RLit (u "年"); (RRep (CSet false [CSpace; CRange 32 32]) 0%nat None); (RGrp 3%nat (RRep (CSet false [CRange 48 57; CRange 65296 65305]) 1%nat (Some 2%nat))); (RRep (CSet false [CSpace; CRange 32 32]) 0%nat None); RLit (u "月"); (RRep (CSet false [CSpace; CRange 32 32]) 0%nat None); (RGrp 4%nat (RRep (CSet false [CRange 48 57; CRange 65296 65305]) 1%nat (Some 2%nat))); (RRep (CSet false [CSpace; CRange 32 32]) 0%nat None); RLit (u "日"); REnd]), 4%nat));
  ((u "ixt:date-day-monthname-year-hi"), ((rseq [REps; (RGrp 1%nat (ralts [(RRep (CSet false [CRange 48 57]) 1%nat (Some 2%nat)); (RRep (CSet false [CRange 2406 2415]) 1%nat (Some 2%nat))])); (RRep (CSet true [CRange 48 57; CRange 2406 2415]) 1%nat None); (RGrp 2%nat (ralts [(RLit (u "जनवरी")); (RLit (u "फरवरी")); (RLit (u "मार्च")); (RLit (u "अप्रैल")); (RLit (u "मई")); (RLit (u "जून")); (RLit (u "जुलाई")); (RLit (u "अगस्त")); (RLit (u "सितंबर")); (RLit (u "अक्टूबर")); (RLit (u "नवंबर")); (RLit (u "दिसंबर"))])); (RRep (CSet true [CRange 48 57; CRange 2406 2415]) 1%nat None); (RGrp 3%nat (ralts [(RRep (CSet false [CRange 48 57]) 2%nat (Some 2%nat)); (RRep (CSet false [CRange 48 57]) 4%nat (Some 4%nat)); (RRep (CSet false [CRange 2406 2415]) 2%nat (Some 2%nat)); (RRep (CSet false [CRange 2406 2415]) 4%nat (Some 4%nat))])); REnd]), 3%nat));
  ((u "ixt:date-monthname-year-hi"), ((rseq [REps; (RGrp 1%nat (ralts [(RLit (u "जनवरी")); (RLit (u "फरवरी")); (RLit (u "मार्च")); (RLit (u "अप्रैल")); (RLit (u "मई")); (RLit (u "जून")); (RLit (u "जुलाई")); (RLit (u "अगस्त")); (RLit (u "सितंबर")); (RLit (u "अक्टूबर")); (RLit (u "नवंबर")); (RLit (u "दिसंबर"))])); (RRep (CSet true [CRange 48 57; CRange 2406 2415]) 1%nat None); (RGrp 2%nat (ralts [(RRep (CSet false [CRange 48 57]) 2%nat (Some 2%nat)); (RRep (CSet false [CRange 48 57]) 4%nat (Some 4%nat)); (RRep (CSet false [CRange 2406 2415]) 2%nat (Some 2%nat)); (RRep (CSet false [CRange 2406 2415]) 4%nat (Some 4%nat))])); REnd]), 2%nat));
  ((u "ixt:date-ind-day-monthname-year-hi"), ((rseq [REps; (RGrp 1%nat (ralts [(RRep (CSet false [CRange 48 57]) 1%nat (Some 2%nat)); (RRep (CSet false [CRange 2406 2415]) 1%nat (Some 2%nat))])); (RRep (CSet true [CRange 48 57; CRange 2406 2415]) 1%nat None); (RGrp 2%nat (ralts [(rseq [RLit (u "C"); (RRep (CSet true [CSpace]) 0%nat None); RLit (u "ait")]); (RLit (u "चैत्र")); (RLit (u "Vai")); (RLit (u "वैशाख")); (RLit (u "बैसाख")); (RLit (u "Jy")); (RLit (u "ज्येष्ठ")); (RLit (u "dha")); (RLit (u "ḍha")); (RLit (u "आषाढ")); (RLit (u "आषाढ़")); (RLit (u "vana")); (RLit (u "Śrāvaṇa")); (RLit (u "श्रावण")); (RLit (u "सावन")); (rseq [RLit (u "Bh"); (RRep (CSet true [CSpace]) 1%nat None); RLit (u "dra")]); (RLit (u "Proṣṭhapada")); (RLit (u "भाद्रपद")); (RLit (u "भादो")); (RLit (u "in")); (RLit (u "आश्विन")); (rseq [RLit (u "K"); (RRep (CSet true [CSpace]) 1%nat None); RLit (u "rti")]); (RLit (u "कार्तिक")); (rseq [RLit (u "M"); (RRep (CSet true [CSpace]) 1%nat None); RLit (u "rga")]); (RLit (u "Agra")); (RLit (u "मार्गशीर्ष")); (RLit (u "अगहन")); (RLit (u "Pau")); (RLit (u "पौष")); (rseq [RLit (u "M"); (RRep (CSet true [CSpace]) 1%nat None); RLit (u "gh")]); (RLit (u "माघ")); (rseq [RLit (u "Ph"); (RRep (CSet true [CSpace]) 1%nat None); RLit (u "lg")]); (RLit (u "फाल्गुन"))])); (RRep (CSet true [CRange 48 57; CRange 2406 2415]) 1%nat None); (RGrp 3%nat (ralts [(RRep (CSet false [CRange 48 57]) 2%nat (Some 2%nat)); (RRep (CSet false [CRange 48 57]) 4%nat (Some 4%nat)); (RRep (CSet false [CRange 2406 2415]) 2%nat (Some 2%nat)); (RRep (CSet false [CRange 2406 2415]) 4%nat (Some 4%nat))])); REnd]), 3%nat))
].

(** irregular_date_order_dict, lines 114-138 *)
Definition irregular_date_order_dict : list (str * list str) := [
  ((u "ixt:date-month-day"), [(u "month"); (u "day")]);
  ((u "ixt:date-month-day-year"), [(u "month"); (u "day"); (u "year")]);
  ((u "ixt:date-year-month-day"), [(u "year"); (u "month"); (u "day")]);
  ((u "ixt:date-year-month"), [(u "year"); (u "month")]);
  ((u "ixt:date-monthname-day-en"), [(u "month"); (u "day")]);
  ((u "ixt:date-monthname-day-year-en"), [(u "month"); (u "day"); (u "year")]);
  ((u "ixt:date-year-monthname-en"), [(u "year"); (u "month")]);
  ((u "ixt:date-monthname-year-it"), [(u "month"); (u "year")]);
  ((u "ixt:date-monthname-day-hu"), [(u "month"); (u "day")]);
  ((u "ixt:date-year-monthname-day-hu"), [(u "year"); (u "month"); (u "day")]);
  ((u "ixt:date-year-monthname-hu"), [(u "year"); (u "month")]);
  ((u "ixt:date-monthname-day-lt"), [(u "month"); (u "day")]);
  ((u "ixt:date-year-monthname-day-lt"), [(u "year"); (u "month"); (u "day")]);
  ((u "ixt:date-year-monthname-lt"), [(u "year"); (u "month")]);
  ((u "ixt:date-year-day-monthname-lv"), [(u "year"); (u "day"); (u "month")]);
  ((u "ixt:date-year-monthname-lv"), [(u "year"); (u "month")]);
  ((u "ixt:date-day-monthname-year-hi"), [(u "day"); (u "month"); (u "year")]);
  ((u "ixt:date-monthname-year-hi"), [(u "month"); (u "year")]);
  ((u "ixt:date-jpn-era-year-month"), [(u "era"); (u "year"); (u "month")]);
  ((u "ixt:date-jpn-era-year-month-day"), [(u "era"); (u "year"); (u "month"); (u "day")])
].

(** country_to_month_names, lines 140-528; the key None is the empty option *)
Definition country_to_month_names : list (option str * list (list str)) := [
  (None, [[(u "01"); (u "1")]; [(u "02"); (u "2")]; [(u "03"); (u "3")]; [(u "04"); (u "4")]; [(u "05"); (u "5")]; [(u "06"); (u "6")]; [(u "07"); (u "7")]; [(u "08"); (u "8")]; [(u "09"); (u "9")]; [(u "10")]; [(u "11")]; [(u "12")]]);
  (Some (u "roman"), [[(u "i")]; [(u "ii")]; [(u "iii")]; [(u "iv")]; [(u "v")]; [(u "vi")]; [(u "vii")]; [(u "viii")]; [(u "ix")]; [(u "x")]; [(u "xi")]; [(u "xii")]]);
  (Some (u "bg"), [[(u "ян")]; [(u "фев")]; [(u "мар")]; [(u "апр")]; [(u "май"); (u "маи")]; [(u "юни")]; [(u "юли")]; [(u "авг")]; [(u "сеп")]; [(u "окт")]; [(u "ное")]; [(u "дек")]]);
  (Some (u "cs"), [[(u "leden"); (u "ledna"); (u "lednu"); (u "led")]; [(u "únor"); (u "unor"); (u "února"); (u "unora"); (u "únoru"); (u "unoru"); (u "úno"); (u "uno")]; [(u "březen"); (u "brezen"); (u "března"); (u "brezna"); (u "březnu"); (u "breznu"); (u "bře"); (u "bre")]; [(u "duben"); (u "dubna"); (u "dubnu"); (u "dub")]; [(u "květen"); (u "kveten"); (u "května"); (u "kvetna"); (u "květnu"); (u "kvetnu"); (u "kvě"); (u "kve")]; [(u "červen"); (u "cerven"); (u "června"); (u "cervna"); (u "červnu"); (u "cervnu"); (u "čvn"); (u "cvn")]; [(u "červenec"); (u "cervenec"); (u "července"); (u "cervence"); (u "červenci"); (u "cervenci"); (u "čvc"); (u "cvc")]; [(u "srpen"); (u "srpna"); (u "srpnu"); (u "srp")]; [(u "září"); (u "zari"); (u "zář"); (u "zar")]; [(u "říjen"); (u "rijen"); (u "října"); (u "rijna"); (u "říjnu"); (u "rijnu"); (u "říj"); (u "rij")]; [(u "listopad"); (u "listopadu"); (u "lis")]; [(u "prosinec"); (u "prosince"); (u "prosinci"); (u "pro")]]);
  (Some (u "cy"), [[(u "ion")]; [(u "chwe")]; [(u "maw")]; [(u "ebr")]; [(u "mai")]; [(u "meh")]; [(u "gor")]; [(u "aws")]; [(u "med")]; [(u "hyd")]; [(u "tach")]; [(u "rhag")]]);
  (Some (u "da"), [[(u "jan")]; [(u "feb")]; [(u "mar")]; [(u "apr")]; [(u "maj")]; [(u "jun")]; [(u "jul")]; [(u "aug")]; [(u "sep")]; [(u "okt")]; [(u "nov")]; [(u "dec")]]);
  (Some (u "de"), [[(u "jan"); (u "jän"); (u "jaen")]; [(u "feb")]; [(u "mär"); (u "maer"); (u "mar")]; [(u "apr")]; [(u "mai")]; [(u "jun")]; [(u "jul")]; [(u "aug")]; [(u "sep")]; [(u "okt")]; [(u "nov")]; [(u "dez")]]);
  (Some (u "el"), [[(u "ιαν"); (u "ίαν")]; [(u "φεβ")]; [(u "μάρ"); (u "μαρ")]; [(u "απρ"); (u "άπρ"); (u "αρίλ"); (u "άρίλ"); (u "αριλ"); (u "άριλ")]; [(u "μαΐ"); (u "μαι"); (u "μάι"); (u "μαϊ"); (u "μάϊ")]; [(u "ιούν"); (u "ίούν"); (u "ίουν"); (u "ιουν")]; [(u "ιούλ"); (u "ίούλ"); (u "ίουλ"); (u "ίουλ"); (u "ιουλ")]; [(u "αύγ"); (u "αυγ")]; [(u "σεπ")]; [(u "οκτ"); (u "όκτ")]; [(u "νοέ"); (u "νοε")]; [(u "δεκ")]]);
  (Some (u "en"), [[(u "january"); (u "jan")]; [(u "february"); (u "feb")]; [(u "march"); (u "mar")]; [(u "april"); (u "apr")]; [(u "may")]; [(u "june"); (u "jun")]; [(u "july"); (u "jul")]; [(u "august"); (u "aug")]; [(u "september"); (u "sep")]; [(u "october"); (u "oct")]; [(u "november"); (u "nov")]; [(u "december"); (u "dec")]]);
  (Some (u "es"), [[(u "ene")]; [(u "feb")]; [(u "mar")]; [(u "abr")]; [(u "may")]; [(u "jun")]; [(u "jul")]; [(u "ago")]; [(u "sep")]; [(u "oct")]; [(u "nov")]; [(u "dic")]]);
  (Some (u "et"), [[(u "jaan")]; [(u "veebr")]; [(u "märts"); (u "marts")]; [(u "apr")]; [(u "mai")]; [(u "juuni")]; [(u "juuli")]; [(u "aug")]; [(u "sept")]; [(u "okt")]; [(u "nov")]; [(u "dets")]]);
  (Some (u "fi"), [[(u "tam")]; [(u "hel")]; [(u "maa")]; [(u "huh")]; [(u "tou")]; [(u "kes")]; [(u "hei")]; [(u "elo")]; [(u "syy")]; [(u "lok")]; [(u "mar")]; [(u "jou")]]);
  (Some (u "fr"), [[(u "janv")]; [(u "févr"); (u "fevr")]; [(u "mars")]; [(u "avr")]; [(u "mai")]; [(u "juin")]; [(u "juil")]; [(u "août"); (u "aout")]; [(u "sept")]; [(u "oct")]; [(u "nov")]; [(u "déc"); (u "dec")]]);
  (Some (u "hi"), [[(u "जनवरी"); (u "cait"); (u "chait"); (u "चैत्र")]; [(u "फरवरी"); (u "vai"); (u "वैशाख"); (u "बैसाख")]; [(u "मार्च"); (u "jy"); (u "ज्येष्ठ")]; [(u "अप्रैल"); (u "dha"); (u "ḍha"); (u "आषाढ"); (u "आषाढ़")]; [(u "मई"); (u "vana"); (u "śrāvaṇa"); (u "श्रावण"); (u "सावन")]; [(u "जून"); (u "bhadra"); (u "proṣṭhapada"); (u "भाद्रपद"); (u "भादो")]; [(u "जुलाई"); (u "in"); (u "आश्विन")]; [(u "अगस्त"); (u "karti"); (u "kartik"); (u "कार्तिक")]; [(u "सितंबर"); (u "mrga"); (u "marga"); (u "agra"); (u "मार्गशीर्ष"); (u "अगहन")]; [(u "अक्टूबर"); (u "pau"); (u "पौष")]; [(u "नवंबर"); (u "mgh"); (u "magha"); (u "माघ")]; [(u "दिसंबर"); (u "phlg"); (u "phalg"); (u "फाल्गुन")]]);
  (Some (u "hr"), [[(u "sij")]; [(u "velj")]; [(u "ožu"); (u "ozu")]; [(u "tra")]; [(u "svi")]; [(u "lip")]; [(u "srp")]; [(u "kol")]; [(u "ruj")]; [(u "lis")]; [(u "stu")]; [(u "pro")]]);
  (Some (u "it"), [[(u "gen")]; [(u "feb")]; [(u "mar")]; [(u "apr")]; [(u "mag")]; [(u "giu")]; [(u "lug")]; [(u "ago")]; [(u "set")]; [(u "ott")]; [(u "nov")]; [(u "dic")]]);
  (Some (u "nl"), [[(u "jan")]; [(u "feb")]; [(u "maa")]; [(u "mrt")]; [(u "apr")]; [(u "mei")]; [(u "jun")]; [(u "jul")]; [(u "aug")]; [(u "sep")]; [(u "okt")]; [(u "nov")]; [(u "dec")]]);
  (Some (u "hu"), [[(u "jan")]; [(u "feb")]; [(u "márc"); (u "marc")]; [(u "ápr"); (u "apr")]; [(u "máj"); (u "maj")]; [(u "jún"); (u "jun")]; [(u "júl"); (u "jul")]; [(u "aug")]; [(u "szept")]; [(u "okt")]; [(u "nov")]; [(u "dec")]]);
  (Some (u "lt"), [[(u "sau")]; [(u "vas")]; [(u "kov")]; [(u "bal")]; [(u "geg")]; [(u "bir")]; [(u "lie")]; [(u "rugp"); (u "rgp"); (u "rugs"); (u "rgs")]; [(u "spa"); (u "spl")]; [(u "lap")]; [(u "gru"); (u "grd")]]);
  (Some (u "lv"), [[(u "janv")]; [(u "febr")]; [(u "marts")]; [(u "apr")]; [(u "maijs")]; [(u "jūn"); (u "jun")]; [(u "jūl"); (u "jul")]; [(u "aug")]; [(u "sept")]; [(u "okt")]; [(u "nov")]; [(u "dec")]]);
  (Some (u "no"), [[(u "jan")]; [(u "feb")]; [(u "mar")]; [(u "apr")]; [(u "mai")]; [(u "jun")]; [(u "jul")]; [(u "aug")]; [(u "sep")]; [(u "okt")]; [(u "nov")]; [(u "des")]]);
  (Some (u "pl"), [[(u "sty")]; [(u "lut")]; [(u "mar")]; [(u "kwi")]; [(u "maj")]; [(u "cze")]; [(u "lip")]; [(u "sie")]; [(u "wrz")]; [(u "paź"); (u "paz")]; [(u "lis")]; [(u "gru")]]);
  (Some (u "pt"), [[(u "jan")]; [(u "fev")]; [(u "mar")]; [(u "abr")]; [(u "mai")]; [(u "jun")]; [(u "jul")]; [(u "ago")]; [(u "set")]; [(u "out")]; [(u "nov")]; [(u "dez")]]);
  (Some (u "ro"), [[(u "ian")]; [(u "feb")]; [(u "mar")]; [(u "apr")]; [(u "mai")]; [(u "iun")]; [(u "iul")]; [(u "aug")]; [(u "sep")]; [(u "oct")]; [(u "noi"); (u "nov")]; [(u "dec")]]);
  (Some (u "sk"), [[(u "jan")]; [(u "feb")]; [(u "mar")]; [(u "apr")]; [(u "máj"); (u "maj")]; [(u "jún"); (u "jun")]; [(u "júl"); (u "jul")]; [(u "aug")]; [(u "sep")]; [(u "okt")]; [(u "nov")]; [(u "dec")]]);
  (Some (u "sl"), [[(u "jan")]; [(u "feb")]; [(u "mar")]; [(u "apr")]; [(u "maj")]; [(u "jun")]; [(u "jul")]; [(u "avg")]; [(u "sep")]; [(u "okt")]; [(u "nov")]; [(u "dec")]]);
  (Some (u "sv"), [[(u "jan")]; [(u "feb")]; [(u "mar")]; [(u "apr")]; [(u "maj")]; [(u "jun")]; [(u "jul")]; [(u "aug")]; [(u "sep")]; [(u "okt")]; [(u "nov")]; [(u "dec")]])
].

(** japanese_era_to_gregorian_period, lines 530-542: era -> (first day, last day) as (year, month, day) *)
Definition japanese_era_to_gregorian_period : list (str * ((N * N * N) * (N * N * N))) := [
  ((u "明治"), ((1868, 10, 23), (1912, 7, 29)));
  ((u "明"), ((1868, 10, 23), (1912, 7, 29)));
  ((u "大正"), ((1912, 7, 30), (1926, 12, 24)));
  ((u "大"), ((1912, 7, 30), (1926, 12, 24)));
  ((u "昭和"), ((1926, 12, 25), (1989, 1, 7)));
  ((u "昭"), ((1926, 12, 25), (1989, 1, 7)));
  ((u "平成"), ((1989, 1, 8), (2019, 4, 30)));
  ((u "平"), ((1989, 1, 8), (2019, 4, 30)));
  ((u "令和"), ((2019, 5, 1), (9999, 12, 31)));
  ((u "令"), ((2019, 5, 1), (9999, 12, 31)))
].

(** legacy_to_current_formats, lines 544-601 *)
Definition legacy_to_current_formats : list (str * str) := [
  ((u "ixt:booleanfalse"), (u "ixt:fixed-false"));
  ((u "ixt:booleantrue"), (u "ixt:fixed-true"));
  ((u "ixt:calindaymonthyear"), (u "ixt:date-ind-day-month-year-hi"));
  ((u "ixt:datedaymonth"), (u "ixt:date-day-month"));
  ((u "ixt:datedaymonthdk"), (u "ixt:date-day-monthname-da"));
  ((u "ixt:datedaymonthen"), (u "ixt:date-day-monthname-en"));
  ((u "ixt:datedaymonthyear"), (u "ixt:date-day-month-year"));
  ((u "ixt:datedaymonthyeardk"), (u "ixt:date-day-monthname-year-da"));
  ((u "ixt:datedaymonthyearen"), (u "ixt:date-day-monthname-year-en"));
  ((u "ixt:dateerayearmonthdayjp"), (u "ixt:date-jpn-era-year-month-day"));
  ((u "ixt:dateerayearmonthjp"), (u "ixt:date-jpn-era-year-month"));
  ((u "ixt:datemonthday"), (u "ixt:date-month-day"));
  ((u "ixt:datemonthdayen"), (u "ixt:date-monthname-day-en"));
  ((u "ixt:datemonthdayyear"), (u "ixt:date-month-day-year"));
  ((u "ixt:datemonthdayyearen"), (u "ixt:date-monthname-day-year-en"));
  ((u "ixt:datemonthyear"), (u "ixt:date-month-year"));
  ((u "ixt:datemonthyeardk"), (u "ixt:date-monthname-year-da"));
  ((u "ixt:datemonthyearen"), (u "ixt:date-monthname-year-en"));
  ((u "ixt:datemonthyearin"), (u "ixt:date-monthname-year-hi"));
  ((u "ixt:dateyearmonthday"), (u "ixt:date-year-month-day"));
  ((u "ixt:dateyearmonthdaycjk"), (u "ixt:date-year-month-day"));
  ((u "ixt:dateyearmonthcjk"), (u "ixt:date-year-month"));
  ((u "ixt:dateyearmonthen"), (u "ixt:date-year-monthname-en"));
  ((u "ixt:nocontent"), (u "ixt:fixed-empty"));
  ((u "ixt:numcommadecimal"), (u "ixt:num-comma-decimal"));
  ((u "ixt:numdotdecimal"), (u "ixt:num-dot-decimal"));
  ((u "ixt:numdotdecimalin"), (u "ixt:num-dot-decimal"));
  ((u "ixt:numunitdecimal"), (u "ixt:num-unit-decimal"));
  ((u "ixt:numunitdecimalin"), (u "ixt:num-unit-decimal"));
  ((u "ixt:zerodash"), (u "ixt:fixed-zero"));
  ((u "ixt:numcomma"), (u "ixt:num-comma-decimal"));
  ((u "ixt:numcommadot"), (u "ixt:num-dot-decimal"));
  ((u "ixt:numdash"), (u "ixt:fixed-zero"));
  ((u "ixt:numdotcomma"), (u "ixt:num-comma-decimal"));
  ((u "ixt:numspacecomma"), (u "ixt:num-comma-decimal"));
  ((u "ixt:numspacedot"), (u "ixt:num-dot-decimal"));
  ((u "ixt:datedoteu"), (u "ixt:date-day-month-year"));
  ((u "ixt:datedotus"), (u "ixt:date-month-day-year"));
  ((u "ixt:datelonguk"), (u "ixt:date-day-monthname-year-en"));
  ((u "ixt:datelongus"), (u "ixt:date-monthname-day-year-en"));
  ((u "ixt:dateshortuk"), (u "ixt:date-day-monthname-year-en"));
  ((u "ixt:dateshortus"), (u "ixt:date-monthname-day-year-en"));
  ((u "ixt:dateslasheu"), (u "ixt:date-day-month-year"));
  ((u "ixt:dateslashus"), (u "ixt:date-month-day-year"));
  ((u "ixt:datelongdaymonthuk"), (u "ixt:date-day-monthname-en"));
  ((u "ixt:datelongmonthdayus"), (u "ixt:date-monthname-day-en"));
  ((u "ixt:dateshortdaymonthuk"), (u "ixt:date-day-monthname-en"));
  ((u "ixt:dateshortmonthdayus"), (u "ixt:date-day-monthname-en"));
  ((u "ixt:dateslashdaymontheu"), (u "ixt:date-day-month"));
  ((u "ixt:dateslashmonthdayus"), (u "ixt:date-month-day"));
  ((u "ixt:datelongyearmonth"), (u "ixt:date-year-monthname-en"));
  ((u "ixt:dateshortyearmonth"), (u "ixt:date-year-monthname-en"));
  ((u "ixt:datelongmonthyear"), (u "ixt:date-monthname-year-en"));
  ((u "ixt:dateshortmonthyear"), (u "ixt:date-monthname-year-en"))
].

(** digits_map, lines 875-898 (in normalize_digits_in_string) *)
Definition digits_map : list (N * N) := [
  (65296, 48);
  (65297, 49);
  (65298, 50);
  (65299, 51);
  (65300, 52);
  (65301, 53);
  (65302, 54);
  (65303, 55);
  (65304, 56);
  (65305, 57);
  (2406, 48);
  (2407, 49);
  (2408, 50);
  (2409, 51);
  (2410, 52);
  (2411, 53);
  (2412, 54);
  (2413, 55);
  (2414, 56);
  (2415, 57)
].

(** separators, line 950 (in process_number_part) *)
Definition separators : list N := [32; 46; 44; 65292; 39; 96; 180; 8217; 8242; 65287].

(** Python's str.lower restricted to the characters that occur in the patterns and month
    tables (single-character mappings; the generator checks that no accepted month spelling
    is lowered differently as a whole string). *)
Definition lower_table : list (N * N) := [
  (65, 97);
  (66, 98);
  (67, 99);
  (68, 100);
  (69, 101);
  (70, 102);
  (71, 103);
  (72, 104);
  (73, 105);
  (74, 106);
  (75, 107);
  (76, 108);
  (77, 109);
  (78, 110);
  (79, 111);
  (80, 112);
  (82, 114);
  (83, 115);
  (84, 116);
  (85, 117);
  (86, 118);
  (87, 119);
  (88, 120);
  (89, 121);
  (90, 122);
  (193, 225);
  (196, 228);
  (201, 233);
  (205, 237);
  (218, 250);
  (219, 251);
  (268, 269);
  (282, 283);
  (344, 345);
  (346, 347);
  (362, 363);
  (377, 378);
  (381, 382);
  (902, 940);
  (904, 941);
  (906, 943);
  (908, 972);
  (910, 973);
  (913, 945);
  (914, 946);
  (915, 947);
  (916, 948);
  (917, 949);
  (921, 953);
  (922, 954);
  (923, 955);
  (924, 956);
  (925, 957);
  (927, 959);
  (928, 960);
  (929, 961);
  (931, 963);
  (932, 964);
  (933, 965);
  (934, 966);
  (938, 970);
  (1040, 1072);
  (1042, 1074);
  (1043, 1075);
  (1044, 1076);
  (1045, 1077);
  (1048, 1080);
  (1049, 1081);
  (1050, 1082);
  (1051, 1083);
  (1052, 1084);
  (1053, 1085);
  (1054, 1086);
  (1055, 1087);
  (1056, 1088);
  (1057, 1089);
  (1058, 1090);
  (1060, 1092);
  (1070, 1102);
  (1071, 1103)
].
