(** Generated by tools/gen_golden.py from the recorded output of the ical command in /repo/suriya/testdata;
    do not edit.  The spelling "Visākha" of the recording is replaced by the current "Vesākha" (cal_day.go:255). *)
From Coq Require Import List String ZArith.
Import ListNotations.

(** The recorded text of the calendar with the events from 2015-05-28 to 2015-08-06 only, CR LF shown as LF, and the UIDs and
    DTSTAMPs in it: day and second of the day. *)
Definition golden_ical_text : string :=
"BEGIN:VCALENDAR
VERSION:2.0
PRODID:Uposatha Moondays Mahānikāya EN
URL:http://splendidmoons.github.io/ical/mahanikaya.ical
NAME:Uposatha Moondays (Mahānikāya)
X-WR-CALNAME:Uposatha Moondays (Mahānikāya)
DESCRIPTION:Uposatha Moondays (Mahānikāya)
X-WR-CALDESC:Uposatha Moondays (Mahānikāya)
REFRESH-INTERVAL;VALUE=DURATION:PT12H
X-PUBLISHED-TTL:PT12H
COLOR:244:196:48
CALSCALE:GREGORIAN
METHOD:PUBLISH
BEGIN:VEVENT
DTSTAMP:20160516T153929Z
UID:70d40161-772a-4311-88dd-4913e31db397
SUMMARY:Full Moon - 15 day Gimha 6/10
DTSTART;VALUE=DATE:20150601
DTEND;VALUE=DATE:20150602
END:VEVENT
BEGIN:VEVENT
DTSTAMP:20160516T153929Z
UID:7c6c8107-11c1-4ce9-80fc-f2f4bd293555
SUMMARY:Vesākha Pūjā
DTSTART;VALUE=DATE:20150601
DTEND;VALUE=DATE:20150602
END:VEVENT
BEGIN:VEVENT
DTSTAMP:20160516T153929Z
UID:c11c50e4-01d2-48d6-b776-c7addea263a4
SUMMARY:Waning Moon
DTSTART;VALUE=DATE:20150609
DTEND;VALUE=DATE:20150610
END:VEVENT
BEGIN:VEVENT
DTSTAMP:20160516T153929Z
UID:7a8c2bf6-3e38-472b-9083-e3a099172b1b
SUMMARY:New Moon - 14 day Gimha 7/10
DTSTART;VALUE=DATE:20150615
DTEND;VALUE=DATE:20150616
END:VEVENT
BEGIN:VEVENT
DTSTAMP:20160516T153929Z
UID:a12b4428-f82c-4ca0-ba76-e417637a998b
SUMMARY:Waxing Moon
DTSTART;VALUE=DATE:20150623
DTEND;VALUE=DATE:20150624
END:VEVENT
BEGIN:VEVENT
DTSTAMP:20160516T153929Z
UID:a4fbf2e8-e250-4d0c-a9da-a3957c2ae105
SUMMARY:Full Moon - 15 day Gimha 8/10
DTSTART;VALUE=DATE:20150630
DTEND;VALUE=DATE:20150701
END:VEVENT
BEGIN:VEVENT
DTSTAMP:20160516T153929Z
UID:d8a62f97-3b6d-4606-a8c5-b2cdd8567996
SUMMARY:Waning Moon
DTSTART;VALUE=DATE:20150708
DTEND;VALUE=DATE:20150709
END:VEVENT
BEGIN:VEVENT
DTSTAMP:20160516T153929Z
UID:1ab60928-e930-4f1f-a2cc-7f409dbd1406
SUMMARY:New Moon - 15 day Gimha 9/10
DTSTART;VALUE=DATE:20150715
DTEND;VALUE=DATE:20150716
END:VEVENT
BEGIN:VEVENT
DTSTAMP:20160516T153929Z
UID:b23379a8-5cd2-481e-a1ed-3d4d37d8c5b3
SUMMARY:Waxing Moon
DTSTART;VALUE=DATE:20150723
DTEND;VALUE=DATE:20150724
END:VEVENT
BEGIN:VEVENT
DTSTAMP:20160516T153929Z
UID:e361d895-5687-4df4-bd60-6f26b230e0ea
SUMMARY:Full Moon - 15 day Gimha 10/10
DTSTART;VALUE=DATE:20150730
DTEND;VALUE=DATE:20150731
END:VEVENT
BEGIN:VEVENT
DTSTAMP:20160516T153929Z
UID:59231038-36f7-4c8f-b0f0-be8aed6ead07
SUMMARY:Āsāḷha Pūjā
DTSTART;VALUE=DATE:20150730
DTEND;VALUE=DATE:20150731
END:VEVENT
BEGIN:VEVENT
DTSTAMP:20160516T153929Z
UID:f043eb29-57ed-4afa-a8f3-a13fa04044ca
SUMMARY:First day of Vassa
DTSTART;VALUE=DATE:20150731
DTEND;VALUE=DATE:20150801
END:VEVENT
END:VCALENDAR
"%string.
Definition golden_ids : list (string * (string * Z)) := [
("70d40161-772a-4311-88dd-4913e31db397", ("2016-05-16", 56369));
("7c6c8107-11c1-4ce9-80fc-f2f4bd293555", ("2016-05-16", 56369));
("c11c50e4-01d2-48d6-b776-c7addea263a4", ("2016-05-16", 56369));
("7a8c2bf6-3e38-472b-9083-e3a099172b1b", ("2016-05-16", 56369));
("a12b4428-f82c-4ca0-ba76-e417637a998b", ("2016-05-16", 56369));
("a4fbf2e8-e250-4d0c-a9da-a3957c2ae105", ("2016-05-16", 56369));
("d8a62f97-3b6d-4606-a8c5-b2cdd8567996", ("2016-05-16", 56369));
("1ab60928-e930-4f1f-a2cc-7f409dbd1406", ("2016-05-16", 56369));
("b23379a8-5cd2-481e-a1ed-3d4d37d8c5b3", ("2016-05-16", 56369));
("e361d895-5687-4df4-bd60-6f26b230e0ea", ("2016-05-16", 56369));
("59231038-36f7-4c8f-b0f0-be8aed6ead07", ("2016-05-16", 56369));
("f043eb29-57ed-4afa-a8f3-a13fa04044ca", ("2016-05-16", 56369))]%string%Z.
