(** Data passed between the packages: /repo/db/inf and /repo/db/field. *)
From Verif Require Export NetIP.

(** db/inf/db_inf.go:30-37 VersionInfo (IpType: 1 = v4, 2 = v6, 3 = both) *)
Record VersionInfo := mkVersion {
  vIpType : Z; vCount : N; vBuild : Z; vVersion : bytes;
  vLanguages : list bytes; vExtra : list bytes }.

(** db/inf/db_inf.go:47-65 HasIpV4, HasIpV6, IsIpAll, IsIpV4, IsIpV6 *)
Definition HasIpV4 (v : VersionInfo) : bool := negb (Z.land (vIpType v) 1 =? 0)%Z.
Definition HasIpV6 (v : VersionInfo) : bool := negb (Z.land (vIpType v) 2 =? 0)%Z.
Definition IsIpAll (v : VersionInfo) : bool := (vIpType v =? 3)%Z.
Definition IsIpV4 (v : VersionInfo) : bool := (vIpType v =? 1)%Z.
Definition IsIpV6 (v : VersionInfo) : bool := (vIpType v =? 2)%Z.

(** db/inf/intern.go:9-18 IpData, IpRaw *)
Record IpRaw := mkRaw { cidr : IPNet; fvals : list bytes }.
Record IpData := mkData { dFields : list bytes; dVersion : VersionInfo; dIps : list IpRaw }.

(** db/inf/db_inf.go:8-20 IpInfo *)
Record IpInfo := mkInfo {
  iCountry : bytes; iDistrict : bytes; iProvince : bytes; iCity : bytes;
  iAsn : bytes; iIsp : bytes; iContinent : bytes; iLine : bytes }.
Definition emptyInfo : IpInfo := mkInfo [] [] [] [] [] [] [] [].

(** db/field/fields.go:19-55 names of the common fields *)
Definition fCountry := str "country".
Definition fProvince := str "province".
Definition fCity := str "city".
Definition fISP := str "isp".
Definition fContinent := str "continent".
Definition fUTCOffset := str "utcOffset".
Definition fLatitude := str "latitude".
Definition fLongitude := str "longitude".
Definition fChinaAdminCode := str "chinaAdminCode".
Definition fAsn := str "asn".
Definition fLine := str "line".
Definition fDistrict := str "district".
