{
 "C01": {
  "note": "All years from 638; C01_before_era_refuted shows the ranges fail in 637."
 },
 "C06": {
  "note": "Wrapping int64 and IEEE binary64 transcriptions (Machine.v) equal the exact integers for |year|,|day| <= 10^12."
 },
 "C10": {
  "note": "The rule of the source (<=) is characterised exactly; the source comment that < works equally is refuted at 3577."
 },
 "C16": {
  "note": "Closed form for every year from 640, with the exact drift after boundary years; drift is 0 in 640..4098 except 3578."
 },
 "C18": {
  "note": "Agreement in 640..4098 except 3578, where the two routes are proved to differ by a day."
 },
 "C57": {
  "note": "The round trip here is for an encoder with stored blocks; C59 gives the decoder's result for every text of the format."
 },
 "C58": {
  "note": "The reader is proved equivalent to the grammar and meaning in SpecJson.v for all byte strings. Strings: every string of the grammar has one meaning, halves of surrogate pairs included; the meaning of names and strings is told by that relation, not by the decoder."
 },
 "C59": {
  "note": "Both directions for every byte string. SpecFlate.v mentions no decoder, but follows Go's packages where they are laxer or stricter than the RFCs; see the statement."
 },
 "C60": {
  "note": "Flag parsing is not modelled; the text of the ical command is any function of the events here, C61 is about the text. Opening and writing are described by whether the name can be opened and how many bytes fit; a failed open changes nothing. That the message of time.Parse starts with 'parsing time ' is from knowledge of Go, whose sources are not in the sandbox."
 },
 "C61": {
  "note": "The text is that of the recorded .ical file, since the ical package is not in /repo; C61_example reproduces the recording byte for byte for a window of ten weeks. A UID longer than 71 octets would make a line too long; the UUIDs of the program have 36."
 },
 "C62": {
  "note": "The offsets are int64 and the file is shorter than 2^63 bytes. bytes.Reader is modelled as of Go 1.4 and later, where Seek has no limit of 2^31."
 },
 "C63": {
  "note": "The disk is a parameter that does not change during a call. What is done with the *os.File returned by Open is not modelled. A Go file that is never closed is closed by its finalizer at some later time; this is not modelled. The directories' absolute paths and the missing Close are findings."
 },
 "C64": {
  "note": "Days are UTC days. The astronomical moons are those of embedded_moons, which C31 and C56 tie to the files; that the data is itself right is not proved."
 },
 "C65": {
  "note": "Stated with the grammar and meaning relations of C58, independently of the printing functions. U+2028, U+2029 and invalid UTF-8, which no string of the library contains, are not modelled in the printer."
 },
 "C66": {
  "note": "Year, AddDate and time.Date are modelled exactly in both versions; Go's own limit is the year 2.9*10^11."
 },
 "C75": {
  "note": "math.Sin is Cephes' routine below the threshold of its second reduction. Fusing the product a*radconv into math.Sin itself, which would need that function inlined, is not modelled."
 },
 "C76": {
  "note": "The cli and flag packages are not in the sandbox; what they do is transcribed from knowledge of them, for versions of cli from 1.17 on and before 1.21 (later ones reorder arguments)."
 },
 "C77": {
  "note": "Rests on the model of the cli and flag packages (see C76)."
 },
 "C78": {
  "note": "Rests on the models of the cli and flag packages (see C76) and of the ical package (see C61), which are not in the sandbox."
 },
 "C79": {
  "note": "Rests on the model of the cli and flag packages (see C76)."
 }
}
