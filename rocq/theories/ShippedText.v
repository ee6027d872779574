(** * The text of the shipped configuration, saratoga/saratoga.json, byte for byte (copied mechanically; quotes are doubled) *)

From Coq Require Import String.
Local Open Scope string_scope.

(** saratoga/saratoga.json *)
Definition saratoga_text : string := "{
	""_comment"" : ""Refer to Config struct comments in sarflags.go and saratoga.go"",
	""v4multicast"" :		""224.0.0.108"",
	""v6multicast"" :		""ff02::6c"",
	""udpport"" :			7542,
	""descriptor"" :      ""d64"",
	""csumtype"" :        ""none"",
	""freespace"" :       ""yes"",
	""txwilling"" :       ""yes"",
	""rxwilling"" :       ""yes"",
	""stream"" :         	""no"",
	""reqtstamp"" :       ""yes"",
	""reqstatus"" :      	""no"",
	""udplite"" :        	""no"",
	""timestamp"" :       ""posix64"",
	""timezone"" :       	""utc"",
	""sardir"" :		    ""/Users/chas/sardir"",
    ""prompt"" :          ""saratoga"",
    ""ppad""  :   		3,
	""buffersize"":		1024,
	""bcount"":			3,
	""timeout"" : {
		""metadata"" : 	55,
		""request"" :  	56,
		""status"" :   	57,
		""transfer"" : 	58,
		""binterval"" :	3,
		""datacounter"" : 100
	},
	""commands"" : {
		""?"" : {
			""usage"" : ""?"",
			""help"" : ""show valid commands. cmd ? shows the individual commands usage""
		},
		""beacon"" : {
			""usage"" : ""beacon [off] [v4|v6|<ip>...]"",
			""help"" : ""send bcount beacons every interval secs. off is ignore beacons""
		},
		""bcount"" : {
			""usage"" : ""bcount [numb]"",
			""help""  : ""set number of beacons to send""
		},
		""cancel"" : {
			""usage"" : ""cancel <transfer>"",
			""help"" : ""cancel a current transfer in progress""
		},
		""checksum"" : {
			""usage"" : ""checksum [off|none|crc32|md5|sha1]"",
			""help"" : ""set checksums required and type""
		},
		""clear"" : {
			""usage"" : ""clear [msg|err|packet]..."",
			""help"" : ""clear display window view""
		},
		""delete"" : {
			""usage"" : ""delete <peer> <filename>"",
			""help"" : ""remove a file from a peer""
		},
		""descriptor"" : {
			""usage"" : ""descriptor [auto|d16|d32|d64|d128]"",
			""help"" : ""advertise & set default descriptor size""
		},
		""exit"" : {
			""usage"" :  ""exit [0|1]"",
			""help"" : ""exit saratoga""
		},
		""files"" : {
			""usage"" :  ""files"",
			""help"" : ""list local files currently open and mode""
		},
		""freespace"" : {
			""usage"" : ""freespace [yes|no]"",
			""help"" : ""advertise freespace or show amount left""
		},
		""get"" : {
			""usage"" :""get [<peer> <filename>]"",
			""help""  : ""get a file from a peer""
		},
		""getdir"" : {
			""usage"" : ""getdir [<peer> <dirname>]"",
			""help"" : ""get a directory listing from a peer""
		},
		""give"" : {
			""usage"" : ""give <peer> <filename>"",
			""help"" : ""send a file to a peer and then remove it when successful""
		},
		""help"" :  {
			""usage"" : ""help"",
			""help"" : ""show commands""
		},
		""history"" :  {
			""usage"" : ""history"",
			""help"" :  ""show command history""
		},
		""home"" : {
			""usage"" :  ""home [<dirname>]"",
			""help"" : ""set home directory for transfers""
		},
		""interval"" : {
			""usage"" : ""interval [seconds]"",
			""help"" : ""set interval between sending beacons""
		},
		""ls"" : {
			""usage"" : ""ls [<peer> [<dirname>>]]"",
			""help"" : ""show local or a peers directory contents""
		},
		""peers"" : {
			""usage"" : ""peers"",
			""help""  : ""list current peers found""
		},
		""put"" : {
			""usage""  : ""put <peer> <filename>"",
			""help"" : ""send a file to a peer""
		},
		""putblind"" : {
			""usage"" : ""putblind <peer> <filename>"",
			""help"" : ""send a file to a peer with no initial request/status exchange""
		},
		""quit"" :  {
			""usage"" : ""quit [0|1]"",
			""help"" : ""exit saratoga""
		},
		""reqtstamp"" :  {
			""usage"" : ""reqtstamp [no|yes]"",
			""help"" : ""request timestamps""
		},
		""rmtran"" : {
			""usage"" : ""rmtran <peer> <session>"",
			""help"" : ""remove a current transfer""
		},
		""rxwilling"" : {
			""usage"" : ""rxwilling [on|off|capable]"",
			""help"" : ""current receive status or turn receive on/off/capable""
		},
		""stream"" : {
			""usage"" : ""stream [yes|no]"",
			""help"" :  ""current stream status or can/cannot handle stream""
		},
		""take"" : {
			""usage"" : ""take [<peer> <filename>]"",
			""help"" : ""get a file from a peer and remove it from peer when successfully transferred""
		},
		""timeout"" : {
			""usage"" : ""timeout [metadata|request|transfer|status|dataframes] <secs|off>"",
			""help"" : ""timeouts in secs for metadata, request frames, status receipts, transfer completion, status sent every dataframes""
		},
		""timestamp"" : {
			""usage"" : ""timestamp [off|32|64|32_32|64_32|32_y2k]"",
			""help"" : ""timestamp type to send""
		},
		""timezone"" :  {
			""usage"" : ""timezone [utc|local]"",
			""help"" : ""show current or set to use local or universal time""
		},
		""tran"" : {
			""usage"" : ""tran [get|take|getdir|put|give|putblind|rm|rmdir]"",
			""help"" : ""list current active transfers of specific type or all""
		},
		""txwilling"" : {
			""usage""  : ""txwilling [on|off|capable]"",
			""help"" : ""show current transfer capability or set on/off/capable""
		},
		""usage"" :  {
			""usage"" : ""usage"",
			""help"" : ""show usage of commands""
		}
	},
	""frameflags"" :
	{
		""beacon"" :  [""version"", ""frametype"", ""descriptor"", ""stream"", ""txwilling"", ""rxwilling"", ""udplite"", ""freespace"", ""freespaced""],
		""request"":  [""version"", ""frametype"", ""descriptor"", ""stream"", ""txwilling"", ""rxwilling"", ""reqtype"", ""fileordir"", ""udplite""],
		""metadata"": [""version"", ""frametype"", ""descriptor"", ""transfer"", ""progress"", ""reliability"", ""csumlen"", ""csumtype""],
		""data"":     [""version"", ""frametype"", ""descriptor"", ""transfer"", ""reqtstamp"", ""reqstatus"", ""eod""],
		""status"":   [""version"", ""frametype"", ""descriptor"", ""reqtstamp"", ""metadatarecvd"", ""allholes"", ""reqholes"", ""errcode""]
	},
	""flags"":
	{
		""version"" : {
			""frametypes"" : [ ""beacon"", ""request"", ""metadata"", ""data"", ""status"" ],
			""len"" : 3,
			""msb"" : 0,
			""options"" : {
				""v0"": 0,
				""v1"": 1
			}
		},
		""frametype"" : {
			""frametypes"" : [ ""beacon"", ""request"", ""metadata"", ""data"", ""status"" ],
			""len"" : 5,
			""msb"" : 3,
			""options"" : {
				""beacon"": 0,
				""request"": 1,
				""metadata"": 2,
				""data"": 3,
				""status"": 4
			}
		},
		""descriptor"" : { 
			""frametypes"" :  [ ""beacon"", ""request"", ""metadata"", ""data"", ""status"" ],
			""len"" : 2,
			""msb"" : 8,
			""options"" : {
				""d16"": 0,
				""d32"": 1,
				""d64"": 2,
				""d128"": 3
			}
		},
		""stream"" : { 
			""frametypes"" : [ ""beacon"", ""request"" ],
			""len"" : 1,
			""msb"" : 11,
			""options"" : {
				""no"": 0,
				""yes"": 1
			}
		},
		""transfer"" : {
			""frametypes"" :  [ ""metadata"", ""data"" ],
			""len""  : 2,
			""msb""  : 10,
			""options"" : {
				""file"": 0,
				""directory"": 1,
				""bundle"": 2,
				""stream"": 3
			}	
		},
		""reqtstamp"" : { 
			""frametypes"" : [ ""data"", ""status"" ],
			""len"" : 1,
			""msb"" : 12,
			""options"": {
				""no"": 0,
				""yes"": 1
			}
		},
		""progress"" : { 
			""frametypes"" : [ ""metadata"" ],
			""len"" : 1,
			""msb"" : 12,
			""options"" : {
				""inprogress"": 0,
				""terminated"": 1
			}
		},
		""txwilling"" : { 
			""frametypes"" :  [ ""beacon"", ""request"" ],
			""len"" : 2,
			""msb"" : 12,
			""options"" : {
				""no"": 0,
				""invalid"": 1,
				""capable"": 2,
				""yes"": 3
			}
		},
		""metadatarecvd"" : { 
			""frametypes"" : [ ""status"" ],
			""len"" : 1,
			""msb"" : 13,
			""options"" : {
				""yes"": 0,
				""no"": 1
			}
		},
		""allholes"" : { 
			""frametypes"" : [ ""status"" ],
			""len"" : 1,
			""msb"" : 14,
			""options"" : {
				""yes"": 0,
				""no"": 1
			}
		},
		""reqtype"" : { 
			""frametypes"" : [ ""request"" ],
			""len"" : 8,
			""msb"" : 24,
			""options"" : {
				""noaction"" : 0,
				""get"": 1,
				""put"": 2,
				""take"": 3,
				""give"": 4,
				""delete"": 5,
				""getdir"": 6
			}
		},
		""rxwilling"" : { 
			""frametypes"" :  [ ""beacon"", ""request""],
			""len"" : 2,
			""msb"" : 14,
			""options"" : {
				""no"": 0,
				""invalid"": 1,
				""capable"": 2,
				""yes"": 3
			}
		},
		""reqholes"" : { 
			""frametypes"" : [ ""status"" ],
			""len"" : 1,
			""msb"" : 15,
			""options"" : {
				""requested"": 0,
				""voluntarily"": 1
			}
		},
		""reqstatus"" : { 
			""frametypes"" : [ ""data"" ],
			""len"" : 1,
			""msb"" : 15,
			""options"" : {
				""no"": 0,
				""yes"": 1
			}
		},
		""udplite"" : { 
			""frametypes"" : [ ""beacon"", ""request"" ],
			""len"": 1,
			""msb"" : 16,
			""options"" : {
				""no"": 0,
				""yes"": 1
			}
		},
		""eod"" : { 
			""frametypes"" : [ ""data"" ],
			""len"" : 1,
			""msb"" : 16,
			""options"" : {
				""no"": 0,
				""yes"": 1
			}
		},
		""freespace"" : { 
			""frametypes"" : [ ""beacon"" ],
			""len"" : 1,
			""msb"" : 17,
			""options"" : {
				""no"": 0,
				""yes"": 1
			}
		},
		""freespaced"" : { 
			""frametypes"" : [ ""beacon"" ],
			""len"" : 2,
			""msb"" : 18,
			""options"" : {
				""d16"": 0,
				""d32"": 1,
				""d64"": 2,
				""d128"": 3
			}
		},
		""csumlen"" : {
			""frametypes"" : [ ""metadata"" ],
			""len"" : 4,
			""msb"" :  24,
			""options"" : {
				""none"": 0,
				""crc32"": 1,
				""invalid2"": 2,
				""invalid3"": 3,
				""md5"": 4,
				""sha1"": 5
			}
		},
		""csumtype"" : { 
			""frametypes"" : [ ""metadata"" ],
			""len"" :  4,
			""msb"" : 28,
			""options"" : {
				""none"": 0,
				""crc32"": 1,
				""md5"": 2,
				""sha1"": 3
			}
		},
		""reliability"" : {
			""frametypes"" : [ ""metadata"" ],
			""len"" : 1,
			""msb"" : 13,
			""options"" : {
				""udponly"": 0,
				""udplite"": 1
			}
		},
		""errcode"" : { 
			""frametypes"" : [ ""status"" ],
			""len"" : 8,
			""msb"" :  24,
			""options"" : {
				""success"": 0,
				""unspecified"": 1,
				""cantsend"": 2,
				""cantreceive"": 3,
				""filenotfound"": 4,
				""accessdenied"": 5,
				""unknownid"": 6,
				""didnotdelete"": 7,
				""filetobig"": 8,
				""badoffset"": 9,
				""badpacket"": 10,
				""badrequest"": 11,
				""internaltimeout"": 12,
				""baddataflag"": 13,
				""rxnotinterested"": 14,
				""fileinuse"": 15,
				""metadatarequired"": 16,
				""badstatus"": 17,
				""rxtimeout"": 18
			}
		}	
	},
	""direntflags"":
	{
		""sod"" : {
			""len"" : 1,
			""msb"" : 0,
			""options"" : {
				""sod"": 1
			}
		},
		""property"" : {
			""len"" : 2,
			""msb"" : 6,
			""options"" : {
				""normalfile"":  0,
				""normaldirectory"": 1,
				""specialfile"": 2,
				""specialdirectory"":  3
			}
		},
		""descriptor"": {
			""len"": 2,
			""msb"": 8,
			""options"": {
				""d16"": 0,
				""d32"": 1,
				""d64"": 2,
				""d128"": 3
			}
		},
		""reserved"": {
			""len"": 1,
			""msb"": 10,
			""options"": {
				""reserved"": 0
			}
		}
	},
	""timestamps"":
	{
		""len"": 8,
		""msb"": 0,
		""options"" : {
			""localinterp"" : 0,
			""posix32"" : 1,
			""posix64"": 2,
			""posix32_32"": 3,
			""posix64_32"": 4,
			""epoch2000_32"": 5
		}
	}
}
".
