{
 "C08": {
  "note": "Self-acceptance holds for finite judge numbers; for infinities it is refuted (C08_infinite_self_refuted). float() parsing is an arbitrary oracle."
 },
 "C09": {
  "note": "Stated over Flocq binary64; relative mode overflow and infinite judge answers in default mode are refuted corner cases."
 },
 "C10": {
  "note": "Double rounding in coci is an arbitrary monotone rounding that is exact on 0, 1 and the point value."
 },
 "C11": {
  "note": "The full statement is false (C11_peg_bounded_refuted); bounds proved when the claimed ratio is at most 1."
 }
}